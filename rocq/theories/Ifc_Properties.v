From Verif Require Import Base Kvs_Model UtilStr_Spec UbrKey_Model UbrDb_Model UbrRec_Model UbrMsg_Model UbrPerm_Spec UbrMsg_Spec BaseUtil_Model Ifc_Model Ifc_Spec Ifc_Proofs.
Local Open Scope nat_scope.

(* C71 *)
(* Each command has its name, and the name gives the command back *)
Theorem command_names_both_ways_partial : forall c s, named c s -> cmd_type_to_name c = Ok (B s) /\ cmd_name_to_type (Some (B s)) = Ok c.
Proof. exact names_lemma. Qed.
Print Assumptions command_names_both_ways_partial.
Theorem unknown_name : forall s, (forall c n, named c n -> s <> B n) -> cmd_name_to_type (Some s) = Ok 1.
Proof. exact unknown_lemma. Qed.
Print Assumptions unknown_name.
Theorem no_name : cmd_name_to_type None = Ok 0.
Proof. exact eq_refl. Qed.
Print Assumptions no_name.
(* A number that is no command has no name: memory behind the table is read *)
Theorem command_name_refuted : forall c, 10 < c -> cmd_type_to_name c = UB.
Proof. exact to_name_ub. Qed.
Print Assumptions command_name_refuted.
Example ex_names : cmd_name_to_type (Some (B "dbdump")) = Ok 7 /\ cmd_name_to_type (Some (B "Scan")) = Ok 1 /\ cmd_name_to_type (Some (B "")) = Ok 1 /\ cmd_type_to_name 11 = UB.
Proof. vm_compute. auto. Qed.
Example ex_named : forall c, c <= 10 -> exists s, named c s.
Proof. intros c H. do 11 (destruct c as [|c]; [eexists; reflexivity|]). lia. Qed.

(* C84 *)
(* The message of a request bears its number, command and flags; only scan and checkpoint requests and raw ones have a body *)
Theorem request_header_sent : forall env q msg, q_cmd q < 256 -> req_message env q = inl msg ->
  exists body, header_of msg (q_seqnum q) 2 (q_cmd q) (q_flags q) body /\ (~ raw q -> ~ device_command (q_cmd q) -> body = []).
Proof. exact request_lemma. Qed.
Print Assumptions request_header_sent.
Theorem raw_data_sent : forall env q m, raw q -> q_cmd q < 256 -> q_mem q = Some m -> length m = q_size q ->
  exists msg, req_message env q = inl msg /\ header_of msg (q_seqnum q) 2 (q_cmd q) (q_flags q) m.
Proof. exact raw_sent_lemma. Qed.
Print Assumptions raw_data_sent.
(* From client to daemon: what root's scan request sends is imported, every string of the environment under its key, for the
   device of MAJOR and MINOR.  Partial: minor numbers below 4096, and no string without value (see environment_imported_refuted). *)
Theorem scan_imported_partial : forall d gen fs q a b, ~ raw q -> q_cmd q = 5 -> (forall x, In x fs -> good_field x) ->
  env_number fs (B "MAJOR") a -> env_number fs (B "MINOR") b -> (a < 2 ^ 20)%N -> (b < 2 ^ 12)%N ->
  exists msg r num d' u dsq, req_message (environment fs) q = inl msg /\ create_cmd d gen (Some 0%N) msg = Ok (Created 5 r d' u)
   /\ imported d d' num fs /\ num_text a b num /\ v_num u = num /\ device_from fs u /\ v_dsq u = Some dsq /\ dsq_text u dsq.
Proof. exact scan_lemma. Qed.
Print Assumptions scan_imported_partial.
(* No device with a minor number from 4096 on can be scanned: the bounds of major and minor numbers are exchanged (Linux has 12
   bits of major and 20 of minor numbers) *)
Theorem scan_imported_refuted : forall fs q a b, ~ raw q -> q_cmd q = 5 -> (forall x, In x fs -> no_eq (fst x)) ->
  env_number fs (B "MAJOR") a -> env_number fs (B "MINOR") b -> (a < 2 ^ 20)%N -> (2 ^ 12 <= b < 2 ^ 64)%N ->
  req_message (environment fs) q = inr (- ERANGE)%Z.
Proof. exact scan_range. Qed.
Print Assumptions scan_imported_refuted.
Theorem scan_without_device : forall fs q, ~ raw q -> q_cmd q = 5 -> (forall x, In x fs -> no_eq (fst x)) ->
  first_value fs (B "MAJOR") = None \/ (exists a, (a < 2 ^ 20)%N /\ env_number fs (B "MAJOR") a) /\ first_value fs (B "MINOR") = None ->
  req_message (environment fs) q = inr (- ENOKEY)%Z.
Proof. exact scan_missing. Qed.
Print Assumptions scan_without_device.
(* A checkpoint request sends the name and the chosen strings ... *)
Theorem checkpoint_sent : forall fs q name keys a b, ~ raw q -> q_cmd q = 3 -> q_check q = Checkpoint (Some name) (Some keys) (length keys) ->
  (forall x, In x fs -> no_eq (fst x)) -> (forall k, In k keys -> no_eq k) -> env_number fs (B "MAJOR") a -> env_number fs (B "MINOR") b -> (a < 2 ^ 20)%N -> (b < 2 ^ 12)%N ->
  exists msg, req_message (environment fs) q = inl msg /\ header_of msg (q_seqnum q) 2 3 (q_flags q)
    (le 8 (makedev a b) ++ name ++ NUL :: List.concat (map (fun k => match first_value fs k with Some v => field_text (k, v) ++ [NUL] | None => [] end) keys)).
Proof. exact check_message. Qed.
Print Assumptions checkpoint_sent.
(* ... but none of them is ever imported, as the daemon takes the name for a string of the environment: the record of the device
   stays as it was, and the command knows neither action nor sequence number *)
Theorem checkpoint_imported_refuted : forall d gen fs q name keys a b, ~ raw q -> q_cmd q = 3 -> q_check q = Checkpoint (Some name) (Some keys) (length keys) ->
  (forall x, In x fs -> no_eq (fst x)) -> (forall k, In k keys -> no_eq k) -> env_number fs (B "MAJOR") a -> env_number fs (B "MINOR") b -> (a < 2 ^ 20)%N -> (b < 2 ^ 12)%N ->
  no_nul name -> no_eq name ->
  exists msg r num d' u, req_message (environment fs) q = inl msg /\ create_cmd d gen (Some 0%N) msg = Ok (Created 3 r d' u)
   /\ (forall x, recs d' x = recs d x) /\ num_text a b num /\ v_num u = num /\ v_action u = None /\ v_seqnum u = 0%N /\ v_dsq u = None.
Proof. exact check_lemma. Qed.
Print Assumptions checkpoint_imported_refuted.
Definition ex_fs : list (bytes * bytes) := [(B "ACTION", B "add"); (B "MAJOR", B "253"); (B "MINOR", B "17"); (B "DEVPATH", B "/devices/virtual/dm-17"); (B "SEQNUM", B "4711"); (B "DISKSEQ", B "9"); (B "MINOR", B "5")].
Definition ex_req (c : nat) (f : N) : ifc_req := Req c f 77 (Checkpoint (Some (B "md")) (Some [B "ACTION"; B "NONE"; B "SEQNUM"]) 3) (Some (B "raw data")) 8.
Example ex_numbers : env_number ex_fs (B "MAJOR") 253 /\ env_number ex_fs (B "MINOR") 17.
Proof.
  split; eexists; (split; [reflexivity|]; split; [discriminate|]; split; [|reflexivity]); intros c H; cbv in H; unfold digit;
    repeat (destruct H as [<-|H]; [cbv; lia|]); destruct H.
Qed.
Example ex_scan_sent : exists msg, req_message (environment ex_fs) (ex_req 5 0) = inl msg /\ match create_cmd (Db (fun _ => None) (fun _ => false)) 1 (Some 0%N) msg with
  | Ok (Created 5 r d u) => v_num u = B "253_17" /\ v_name u = Some (B "dm-17") /\ v_seqnum u = 4711%N /\ option_map r_data (recs d (property_key (B "253_17") (B "ACTION"))) = Some [B "add" ++ [NUL]]
  | _ => False end.
Proof. eexists. split; [reflexivity|]. vm_compute. repeat split. Qed.
Example ex_minor : req_message (map B ["MAJOR=253"; "MINOR=4096"]%string) (ex_req 5 0) = inr (-34)%Z. Proof. reflexivity. Qed.
Example ex_raw : ~ raw (ex_req 5 0) /\ raw (ex_req 6 5) /\ req_message [] (ex_req 6 5) = inl (le 8 77 ++ map ascii_of_nat [2; 6; 5; 0] ++ B "raw data").
Proof. split; [discriminate|]. split; reflexivity. Qed.
Example ex_checkpoint : exists msg, req_message (environment ex_fs) (ex_req 3 0) = inl msg /\ skipn 20 msg = B "md" ++ [NUL] ++ B "ACTION=add" ++ [NUL] ++ B "SEQNUM=4711" ++ [NUL]
  /\ match create_cmd (Db (fun _ => None) (fun _ => false)) 1 (Some 0%N) msg with
     | Ok (Created 3 r d u) => v_num u = B "253_17" /\ v_action u = None /\ recs d (property_key (B "253_17") (B "ACTION")) = None | _ => False end.
Proof. eexists. split; [reflexivity|]. split; [reflexivity|]. vm_compute. repeat split. Qed.

(* C85 *)
(* The accessors of a result give the parts of the reply *)
Theorem result_parts : forall cmd msg file s p c f body, header_of msg s p c f body -> p < 256 -> c < 256 -> (s < 2 ^ 64)%N -> cmd <> 7 -> exists l,
  req_result cmd msg file = Ok (inl l) /\ rsl_status (Some l) = Ok (0%Z, s) /\ rsl_protocol (Some l) = Ok (0%Z, p)
  /\ rsl_data (Some l) = Ok (if N.odd s then None else match body with [] => None | _ => Some body end).
Proof. exact result_lemma. Qed.
Print Assumptions result_parts.
(* that of a dump the data of the file *)
Theorem dump_parts_partial : forall msg s p c f body data rest, header_of msg s p c f body -> p < 256 -> c < 256 -> (s < 2 ^ 64)%N -> data <> [] -> (N.of_nat (4 + length data) < 2 ^ 32)%N -> exists l,
  req_result 7 msg (le 4 (N.of_nat (4 + length data)) ++ data ++ rest) = Ok (inl l) /\ rsl_status (Some l) = Ok (0%Z, s) /\ rsl_protocol (Some l) = Ok (0%Z, p)
  /\ rsl_data (Some l) = Ok (if N.odd s then None else Some data).
Proof. exact dump_lemma. Qed.
Print Assumptions dump_parts_partial.
Theorem short_reply : forall cmd msg file, length msg < 12 -> req_result cmd msg file = Ok (inr (- EBADMSG)%Z).
Proof. exact short_reply_lemma. Qed.
Print Assumptions short_reply.
(* No accessor reads outside of any result that was given *)
Theorem results_readable : forall cmd msg file l, req_result cmd msg file = Ok (inl l) ->
  (exists s, rsl_status (Some l) = Ok (0%Z, s)) /\ (exists p, rsl_protocol (Some l) = Ok (0%Z, p)) /\ (exists x, rsl_data (Some l) = Ok x).
Proof. exact results_safe. Qed.
Print Assumptions results_readable.
(* A dump cut short by the daemon is mapped beyond its end *)
Theorem dump_parts_refuted : exists msg file s p c f body, header_of msg s p c f body /\ 4 <= length file /\ req_result 7 msg file = UB.
Proof. exact (ex_intro _ (le 8 0 ++ map ascii_of_nat [2; 7; 0; 0]) (ex_intro _ (le 4 9) (ex_intro _ 0%N (ex_intro _ 2 (ex_intro _ 7 (ex_intro _ 0%N (ex_intro _ [] (conj eq_refl (conj (le_n 4) eq_refl))))))))). Qed.
Print Assumptions dump_parts_refuted.
Example ex_result : exists l, req_result 6 (le 8 2 ++ map ascii_of_nat [2; 4; 1; 0] ++ B "{}") [] = Ok (inl l) /\ rsl_data (Some l) = Ok (Some (B "{}")) /\ rsl_status (Some l) = Ok (0%Z, 2%N).
Proof. eexists. split; [reflexivity|]. split; reflexivity. Qed.
Example ex_failure : exists l, req_result 6 (le 8 1 ++ map ascii_of_nat [2; 4; 1; 0] ++ B "{}") [] = Ok (inl l) /\ rsl_data (Some l) = Ok None.
Proof. eexists. split; reflexivity. Qed.
Example ex_dump : exists l, req_result 7 (le 8 0 ++ map ascii_of_nat [2; 4; 1; 0]) (le 4 7 ++ B "abc") = Ok (inl l) /\ rsl_data (Some l) = Ok (Some (B "abc")).
Proof. eexists. split; reflexivity. Qed.
