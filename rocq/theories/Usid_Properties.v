From Verif Require Import Base UtilStr_Spec UbrDb_Model UbrKey_Spec UbrRec_Model UbrMsg_Spec UbrPerm_Spec Ifc_Model Ifc_Spec UbrSync_Model UbrSync_Spec UbrUdev_Spec UbrUdev_Properties Usid_Model Usid_Spec Usid_Proofs.
Local Open Scope nat_scope.

(* C112: what usid prints is what the daemon answered *)
Theorem scan_printed : forall fs n a b own args daemon s p g ps, uevent_env fs n a b -> (forall msg, scan_text fs n a b msg -> daemon msg = g) -> reply s p (as_strings ps) g -> N.odd s = false -> ps <> [] -> Forall no_nul ps ->
  usid (environment fs) own (B "scan" :: args) daemon = Ok (as_lines ps ++ says (if p =? 2 then "active" else "incompatible"), true).
Proof. exact prints_lemma. Qed.
Print Assumptions scan_printed.
(* from the database of the daemon to the output of the client *)
Theorem database_printed : forall vec d keys lines l d' fs n a b own args daemon g, index_list d keys -> Forall no_nul keys -> export vec keys d = Ok (Some (lines, l, d')) -> lines <> [] ->
  uevent_env fs n a b -> (forall msg, scan_text fs n a b msg -> daemon msg = g) -> reply 0 2 (List.concat lines) g ->
  exists ps, lines = map (fun p => p ++ [NUL]) ps /\ usid (environment fs) own (B "scan" :: args) daemon = Ok (as_lines ps ++ says "active", true).
Proof. exact from_database. Qed.
Print Assumptions database_printed.
(* the output tells the properties, when none has a line end *)
Theorem output_tells_properties_partial : forall fs n a b own args d1 d2 g1 g2 ps qs, uevent_env fs n a b -> (forall msg, scan_text fs n a b msg -> d1 msg = g1) -> (forall msg, scan_text fs n a b msg -> d2 msg = g2) ->
  reply 0 2 (as_strings ps) g1 -> reply 0 2 (as_strings qs) g2 -> ps <> [] -> qs <> [] -> Forall no_nul ps -> Forall no_nul qs -> Forall (fun x => ~ In LF x) ps -> Forall (fun x => ~ In LF x) qs ->
  usid (environment fs) own (B "scan" :: args) d1 = usid (environment fs) own (B "scan" :: args) d2 -> ps = qs.
Proof. exact unambiguous_lemma. Qed.
Print Assumptions output_tells_properties_partial.
Theorem output_tells_properties_refuted : forall fs n a b own args, uevent_env fs n a b -> exists ps qs d1 d2 g1 g2,
  ps <> qs /\ Forall no_nul ps /\ Forall no_nul qs /\ (forall msg, scan_text fs n a b msg -> d1 msg = g1) /\ (forall msg, scan_text fs n a b msg -> d2 msg = g2) /\ reply 0 2 (as_strings ps) g1 /\ reply 0 2 (as_strings qs) g2
  /\ usid (environment fs) own (B "scan" :: args) d1 = usid (environment fs) own (B "scan" :: args) d2.
Proof. exact ambiguous_lemma. Qed.
Print Assumptions output_tells_properties_refuted.
(* the other answers *)
Theorem scan_failed : forall fs n a b own args daemon s p body g, uevent_env fs n a b -> (forall msg, scan_text fs n a b msg -> daemon msg = g) -> reply s p body g -> N.odd s = true ->
  usid (environment fs) own (B "scan" :: args) daemon = Ok (says "incompatible", false).
Proof. exact failed_lemma. Qed.
Print Assumptions scan_failed.
Theorem scan_no_answer : forall fs n a b own args daemon r, uevent_env fs n a b -> (forall msg, scan_text fs n a b msg -> daemon msg = inr r) -> (r < 0)%Z ->
  usid (environment fs) own (B "scan" :: args) daemon = Ok (says (if (r =? -111)%Z then "inactive" else if (r =? - EBADMSG)%Z then "incompatible" else "error"), (r =? -111)%Z).
Proof. exact no_answer_lemma. Qed.
Print Assumptions scan_no_answer.
Theorem scan_no_seqnum : forall fs own args daemon, (forall x, In x fs -> no_eq (fst x)) -> first_value fs (B "SEQNUM") = None -> usid (environment fs) own (B "scan" :: args) daemon = Ok (says "error", false).
Proof. exact no_seqnum_lemma. Qed.
Print Assumptions scan_no_seqnum.
Theorem inactive_reported : forall fs n own args daemon, (forall x, In x fs -> no_eq (fst x)) -> env_number fs (B "SEQNUM") n -> (n < 2 ^ 64)%N ->
  (forall msg, header_of msg n 2 6 2 [] -> daemon msg = inr (-111)%Z) -> usid (environment fs) own (B "active" :: args) daemon = Ok (says "inactive", false).
Proof. exact active_lemma. Qed.
Print Assumptions inactive_reported.
Theorem version_printed : forall fs n own args daemon s g t rest, (forall x, In x fs -> no_eq (fst x)) -> env_number fs (B "SEQNUM") n -> (n < 2 ^ 64)%N ->
  (forall msg, header_of msg n 2 6 2 [] -> daemon msg = g) -> reply s 2 (t ++ NUL :: rest) g -> N.odd s = false -> no_nul t ->
  usid (environment fs) own (B "version" :: args) daemon = Ok (own ++ t ++ says "active", true) /\ usid (environment fs) own (B "active" :: args) daemon = Ok (says "active", true).
Proof. exact version_lemma. Qed.
Print Assumptions version_printed.
(* refuted: a daemon of the same protocol that answered is active.  A successful answer without data is reported as incompatible;
   the daemon answers each checkpoint so *)
Theorem answer_is_active_refuted : forall fs n a b own args daemon s p g, uevent_env fs n a b -> (forall msg, scan_text fs n a b msg -> daemon msg = g) -> reply s p [] g -> N.odd s = false ->
  usid (environment fs) own (B "scan" :: args) daemon = Ok (says "incompatible", true).
Proof. exact none_lemma. Qed.
Print Assumptions answer_is_active_refuted.
Theorem checkpoint_is_active_refuted : forall fs n a b own name key keys daemon s p g, uevent_env fs n a b -> (forall k, In k (key :: keys) -> no_eq k) ->
  (forall msg body, header_of msg n 2 3 2 (le 8 (makedev a b) ++ name ++ NUL :: body) -> daemon msg = g) -> reply s p [] g -> N.odd s = false ->
  usid (environment fs) own (B "checkpoint" :: name :: key :: keys) daemon = Ok (says "incompatible", true).
Proof. exact checkpoint_lemma. Qed.
Print Assumptions checkpoint_is_active_refuted.
(* refuted: every answer is printed within its bounds.  The last string must have its end *)
Theorem answer_in_bounds_refuted : forall fs n a b own args daemon s p g ps t, uevent_env fs n a b -> (forall msg, scan_text fs n a b msg -> daemon msg = g) -> reply s p (as_strings ps ++ t) g -> N.odd s = false -> Forall no_nul ps -> t <> [] -> no_nul t ->
  usid (environment fs) own (B "scan" :: args) daemon = UB.
Proof. exact unended_lemma. Qed.
Print Assumptions answer_in_bounds_refuted.

Definition ev_env : list (bytes * bytes) := [(B "ACTION", B "add"); (B "SEQNUM", B "1234"); (B "MAJOR", B "8"); (B "MINOR", B "17"); (B "DEVNAME", B "/dev/sdb1")].
Definition ev_answer (s : N) (p : nat) (body : bytes) : got := inl (Rsl (le 8 s ++ ascii_of_nat p :: ascii_of_nat 4 :: le 2 0 ++ body) None).
Definition ev_daemon (body : bytes) (msg : bytes) : got := if list_eq_dec ascii_dec (firstn 12 msg) (le 8 1234 ++ ascii_of_nat 2 :: ascii_of_nat 5 :: le 2 2) then ev_answer 0 2 body else ev_answer 1 2 [].
Example ev_env_ok : uevent_env ev_env 1234 8 17.
Proof.
  split; [intros x I; cbn in I; decompose [or] I; try contradiction; subst x; cbv; intuition discriminate|].
  assert (D : forall s, forallb (fun c => (48 <=? nat_of_ascii c) && (nat_of_ascii c <=? 57)) s = true -> forall c, In c s -> digit c).
  { intros s H c I. rewrite forallb_forall in H. apply H in I. unfold digit. lia. }
  split; [exists (B "1234"); split; [reflexivity|]; split; [discriminate|]; split; [apply D; reflexivity|vm_compute; reflexivity]|]. split; [reflexivity|].
  split; [exists (B "8"); split; [reflexivity|]; split; [discriminate|]; split; [apply D; reflexivity|vm_compute; reflexivity]|].
  split; [exists (B "17"); split; [reflexivity|]; split; [discriminate|]; split; [apply D; reflexivity|vm_compute; reflexivity]|]. split; reflexivity.
Qed.
Example ev_asked : forall body msg, scan_text ev_env 1234 8 17 msg -> ev_daemon body msg = ev_answer 0 2 body.
Proof. intros body msg ->. vm_compute. reflexivity. Qed.
Example ev_reply : forall body, reply 0 2 body (ev_answer 0 2 body).
Proof. intros body. eexists. split; [reflexivity|]. split; [lia|]. split; [lia|reflexivity]. Qed.
Example ev_printed : usid (environment ev_env) [] [B "scan"] (ev_daemon (B "ID_FS_TYPE=xfs" ++ NUL :: B "SID_SESSION_ID=7" ++ [NUL]))
  = Ok (B "ID_FS_TYPE=xfs" ++ LF :: B "SID_SESSION_ID=7" ++ LF :: B "SID_STATUS=active" ++ [LF], true).
Proof. vm_compute. reflexivity. Qed.
Example ev_empty : usid (environment ev_env) [] [B "scan"] (ev_daemon []) = Ok (B "SID_STATUS=incompatible" ++ [LF], true).
Proof. vm_compute. reflexivity. Qed.
Example ev_gone : usid (environment ev_env) [] [B "scan"] (fun _ => inr (-111)%Z) = Ok (B "SID_STATUS=inactive" ++ [LF], true).
Proof. vm_compute. reflexivity. Qed.
Example ev_unended : usid (environment ev_env) [] [B "scan"] (ev_daemon (B "ID_FS_TYPE=xfs")) = UB.
Proof. vm_compute. reflexivity. Qed.
Example ev_database : ud_text ud_two [ud_key "A"; ud_key "B"] = Some (as_strings [B "A=x"; B "B=yz"])
  /\ usid (environment ev_env) [] [B "scan"] (ev_daemon (as_strings [B "A=x"; B "B=yz"])) = Ok (B "A=x" ++ LF :: B "B=yz" ++ LF :: says "active", true).
Proof. split; vm_compute; reflexivity. Qed.
