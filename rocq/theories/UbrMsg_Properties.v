From Verif Require Import Base Kvs_Model UtilStr_Model UbrKey_Model UbrDb_Model UbrRec_Model UbrMsg_Model UbrPerm_Spec UbrMsg_Spec UbrMsg_Proofs.
Local Open Scope nat_scope.

(* C64 *)
(* A command that only root may run is created for root only; and what is created is a command the client asked for, in protocol 2 *)
Theorem root_commands : forall d gen uid msg c r d' u, create_cmd d gen uid msg = Ok (Created c r d' u) ->
  (root_command c -> uid = Some 0%N) /\ c <= 10 /\ exists body, request msg 2 c body.
Proof. exact (fun d gen uid msg c r d' u H => match created_lemma d gen uid msg c r d' u H with ex_intro _ body (conj A (conj B (conj C _))) => conj C (conj B (ex_intro _ body A)) end). Qed.
Print Assumptions root_commands.
(* Its entry is that of the command *)
Theorem command_entry : forall d gen uid msg c r d' u, create_cmd d gen uid msg = Ok (Created c r d' u) ->
  (0 < c -> g_name r = Some (B (nth c command_names ""%string))) /\ (c = 0 -> g_name r = None) /\ (g_import r = true <-> device_command c) /\ (g_exec r = true <-> has_action c).
Proof. exact (fun d gen uid msg c r d' u H => match created_lemma d gen uid msg c r d' u H with ex_intro _ body (conj _ (conj _ (conj _ E))) => entry_lemma c r E end). Qed.
Print Assumptions command_entry.
(* Who may run a command is served, others are refused: numbers 0 to 10 *)
Theorem request_served_partial : forall d gen uid msg c body, request msg 2 c body -> c <= 10 ->
  (uid = Some 0%N \/ ~ root_command c -> ~ device_command c -> exists r u, create_cmd d gen uid msg = Ok (Created c r d u))
  /\ (uid = Some 0%N \/ ~ root_command c -> device_command c -> forall d' u x, parse_udev_env d gen body = Ok (d', u, x) -> (0 <= x)%Z ->
        exists r, create_cmd d gen uid msg = Ok (Created c r d' u))
  /\ (uid <> Some 0%N -> root_command c -> create_cmd d gen uid msg = Ok Refused).
Proof. exact served_lemma. Qed.
Print Assumptions request_served_partial.
Theorem wrong_protocol_refused : forall d gen uid msg p c body, request msg p c body -> c <= 10 -> p <> 2 -> create_cmd d gen uid msg = Ok Refused.
Proof. exact protocol_lemma. Qed.
Print Assumptions wrong_protocol_refused.
(* Not every number selects an entry: with any number above 10, from whomever and with whatever protocol, memory behind the table is read *)
Theorem command_entry_refuted : forall d gen uid msg p c body, request msg p c body -> 10 < c -> create_cmd d gen uid msg = UB.
Proof. exact out_of_range_lemma. Qed.
Print Assumptions command_entry_refuted.
(* A message shorter than a header is refused, but the refusal reads a whole header *)
Theorem short_message_refuted : forall d gen uid msg, length msg < 12 -> create_cmd d gen uid msg = Ok Refused /\ forall a w, reply_failure msg a w = UB.
Proof. exact short_lemma. Qed.
Print Assumptions short_message_refuted.
(* The refusal is never sent when the reply could be prepared *)
Theorem refusal_sent_refuted : forall msg p c body add write, request msg p c body -> (0 <= add)%Z ->
  exists r, reply_failure msg add write = Ok (false, r).
Proof. exact reply_lemma. Qed.
Print Assumptions refusal_sent_refuted.
Definition ex_db : db := Db (fun _ => None) (fun _ => false).
Definition ex_msg (p c : nat) (body : bytes) : bytes := repeat NUL 8 ++ [ascii_of_nat p; ascii_of_nat c] ++ repeat NUL 2 ++ body.
Definition ex_env : bytes := le 8 (makedev 8 17) ++ env_text [(B "ACTION", B "add"); (B "DEVPATH", B "/devices/x/sda1"); (B "SEQNUM", B "4711"); (B "DEVTYPE", B "partition"); (B "DISKSEQ", B "9"); (B "PARTN", B "1")].
Example ex_request : request (ex_msg 2 6 (B "x")) 2 6 (B "x").
Proof. exists (repeat NUL 8), (repeat NUL 2). split; [reflexivity|]. split; [reflexivity|]. split; [lia|]. split; [lia|]. reflexivity. Qed.
Example ex_version : exists r d u, create_cmd ex_db 1 (Some 1000%N) (ex_msg 2 6 []) = Ok (Created 6 r d u). Proof. eexists _, _, _. reflexivity. Qed.
Example ex_scan_user : create_cmd ex_db 1 (Some 1000%N) (ex_msg 2 5 ex_env) = Ok Refused. Proof. reflexivity. Qed.
Example ex_scan_root : match create_cmd ex_db 1 (Some 0%N) (ex_msg 2 5 ex_env) with
  | Ok (Created 5 r d u) => v_num u = B "8_17" /\ v_dsq u = Some (B "9-part1") /\ v_name u = Some (B "sda1") /\ v_seqnum u = 4711%N
      /\ option_map r_data (recs d (property_key (B "8_17") (B "ACTION"))) = Some [B "add" ++ [NUL]]
  | _ => False end. Proof. vm_compute. repeat split. Qed.
Example ex_eleven : create_cmd ex_db 1 (Some 1000%N) (ex_msg 2 11 []) = UB. Proof. reflexivity. Qed.

(* C65 *)
(* Every string of a well-formed environment is stored under its key, the last one of a key wins, nothing else changes; and the
   device is described by them *)
Theorem environment_imported_partial : forall d gen a b fs, (a < 2 ^ 31)%N -> (b < 2 ^ 31)%N -> fs <> [] -> (forall x, In x fs -> good_field x) ->
  exists num d' u dsq, parse_udev_env d gen (le 8 (makedev a b) ++ env_text fs) = Ok (d', u, 0%Z)
   /\ imported d d' num fs /\ num_text a b num /\ v_num u = num /\ device_from fs u /\ v_dsq u = Some dsq /\ dsq_text u dsq.
Proof. exact all_imported_lemma. Qed.
Print Assumptions environment_imported_partial.
(* ... so that each module reads it under its name *)
Theorem property_readable : forall d d' num fs k v w id seq gen, imported d d' num fs -> last_value fs k = Some v -> name_ok k -> no_nul w ->
  exists flags, kv_get d' (Ucmd (DevCtx (Some num) id) seq gen) w NS_UDEV k 0 None None = (Some ([v ++ [NUL]], flags), 0%Z).
Proof. exact readable_lemma. Qed.
Print Assumptions property_readable.
(* The request fails when there is no string at all *)
Theorem environment_missing : forall d gen uid msg c env, request msg 2 c env -> device_command c -> length env <= 8 -> create_cmd d gen uid msg = Ok Refused.
Proof. exact missing_lemma. Qed.
Print Assumptions environment_missing.
(* A string without value, or that is no pair, ends the import without failing the request: all strings after it are lost *)
Theorem environment_imported_refuted : forall d gen msg c a b fs s rest, request msg 2 c (le 8 (makedev a b) ++ env_text fs ++ s ++ NUL :: rest) -> device_command c ->
  (a < 2 ^ 31)%N -> (b < 2 ^ 31)%N -> (forall x, In x fs -> good_field x) -> bad_string s ->
  exists r num d' u, create_cmd d gen (Some 0%N) msg = Ok (Created c r d' u) /\ imported d d' num fs /\ num_text a b num /\ v_num u = num /\ device_from fs u /\ v_dsq u = None.
Proof. exact dropped_lemma. Qed.
Print Assumptions environment_imported_refuted.
(* Without the NUL of the last string memory after the message is read *)
Theorem environment_end_refuted : forall d gen msg c a b fs rest, request msg 2 c (le 8 (makedev a b) ++ env_text fs ++ rest) -> device_command c ->
  (a < 2 ^ 31)%N -> (b < 2 ^ 31)%N -> (forall x, In x fs -> good_field x) -> no_nul rest -> rest <> [] ->
  create_cmd d gen (Some 0%N) msg = UB.
Proof. exact end_lemma. Qed.
Print Assumptions environment_end_refuted.
(* A device path without a '/' after its first character makes a pointer past NULL *)
Theorem device_path_refuted : forall d gen msg c a b fs v rest, request msg 2 c (le 8 (makedev a b) ++ env_text fs ++ (B "DEVPATH=" ++ v) ++ NUL :: rest) -> device_command c ->
  (a < 2 ^ 31)%N -> (b < 2 ^ 31)%N -> (forall x, In x fs -> good_field x) -> no_nul v -> v <> [] -> ~ has_dir v ->
  create_cmd d gen (Some 0%N) msg = UB.
Proof. exact path_lemma. Qed.
Print Assumptions device_path_refuted.
Example ex_fields : forall x, In x [(B "ACTION", B "add"); (B "DEVPATH", B "/devices/x/sda1"); (B "ID", B "a=b")] -> good_field x.
Proof.
  intros x H. assert (X : good_field x); [|exact X]. unfold good_field, no_eq, no_nul, has_dir.
  repeat (destruct H as [<-|H]; [cbn [fst snd]; repeat (split; [cbv; intuition discriminate|]); try discriminate|]); [|destruct H].
  intros _. exists (B "/devices"), (B "x/sda1"). split; [discriminate|reflexivity].
Qed.
Example ex_empty_value : bad_string (B "B="). Proof. split; [cbv; intuition discriminate|]. right. exists (B "B"). split; [cbv; intuition discriminate|reflexivity]. Qed.
Example ex_lost : match create_cmd ex_db 1 (Some 0%N) (ex_msg 2 5 (le 8 (makedev 8 0) ++ B "A=1" ++ [NUL] ++ B "B=" ++ [NUL] ++ B "C=3" ++ [NUL])) with
  | Ok (Created 5 _ d u) => recs d (property_key (B "8_0") (B "A")) <> None /\ recs d (property_key (B "8_0") (B "C")) = None /\ v_dsq u = None
  | _ => False end. Proof. vm_compute. split; [discriminate|]. split; reflexivity. Qed.
Example ex_path : ~ has_dir (B "/sda").
Proof. intros (a & b & Na & E). destruct a as [|x a]; [congruence|]. injection E as _ E. do 4 (destruct a as [|? a]; try discriminate E; injection E as _ E). Qed.
