From Verif Require Import Base UbrRec_Model UbrMsg_Model UbrMsg_Spec UbrPerm_Spec Ifc_Model Ifc_Spec Usid_Model Usid_Spec Fmt_Model Json_Spec Doc_Model Sidctl_Model Sidctl_Spec Sidctl_Proofs.
Local Open Scope nat_scope.

(* C119: dbdump, dbstats, resources and devices print exactly the text the daemon sends, in the format asked for *)
Theorem sidctl_shows_data : forall b env l f cmd name daemon g s t rest, sets_format TABLE l f -> shows_data cmd name -> (forall msg, request cmd f msg -> daemon msg = g) ->
  replied s (t ++ NUL :: rest) g -> N.odd s = false -> no_nul t -> sidctl b env l [B name] daemon = Ok (Run t false true).
Proof. exact shows_lemma. Qed.
Print Assumptions sidctl_shows_data.
Theorem sidctl_shows_nothing : forall b env l f cmd name daemon g s p, sets_format TABLE l f -> shows_data cmd name -> (forall msg, request cmd f msg -> daemon msg = g) ->
  reply s p [] g -> N.odd s = false -> sidctl b env l [B name] daemon = Ok (Run [] false true).
Proof. exact empty_lemma. Qed.
Print Assumptions sidctl_shows_nothing.
(* no answer, or an answer of failure, shows in the exit status *)
Theorem sidctl_failure_shows : forall b env l f cmd name daemon g, sets_format TABLE l f -> shows_data cmd name -> (forall msg, request cmd f msg -> daemon msg = g) -> failed g ->
  sidctl b env l [B name] daemon = Ok (Run [] false false).
Proof. exact fails_lemma. Qed.
Print Assumptions sidctl_failure_shows.
(* refuted: every answer is printed within its bounds *)
Theorem sidctl_in_bounds_refuted : forall b env l f cmd name daemon g s t, sets_format TABLE l f -> named cmd name -> 6 <= cmd -> (forall msg, request cmd f msg -> daemon msg = g) ->
  replied s t g -> N.odd s = false -> no_nul t -> t <> [] -> sidctl b env l [B name] daemon = UB.
Proof. exact unended_lemma. Qed.
Print Assumptions sidctl_in_bounds_refuted.

(* C120: version prints the own version and the one of the daemon as one document, whatever the numbers *)
Theorem sidctl_version_shows : forall b env l f daemon g s p x y z, sets_format TABLE l f -> (forall msg, request 6 f msg -> daemon msg = g) ->
  replied s (emits (flags_to_format (format_number f)) (version p x y z)) g -> N.odd s = false ->
  exists t, sidctl b env l [B "version"] daemon = Ok (Run t false true) /\
  match f with
  | JSON => parse t = Some (both_versions (b_vsn b) (JObj [(B "SID_IFC_PROTOCOL", JInt (Z.of_N p)); (B "SID_MAJOR", JInt (Z.of_N x)); (B "SID_MINOR", JInt (Z.of_N y)); (B "SID_RELEASE", JInt (Z.of_N z))]))
  | TABLE => t = B "SIDCTL_VERSION:" ++ [LF] ++ own_lines (B ": ") (b_vsn b) ++ [LF] ++ B "SID_VERSION:" ++ [LF] ++ daemon_lines (B ": ") p x y z
  | ENV => t = own_lines (B "=") (b_vsn b) ++ daemon_lines (B "=") p x y z
  end.
Proof. exact answered_lemma. Qed.
Print Assumptions sidctl_version_shows.
(* refuted: the exit status tells whether the daemon answered.  Version succeeds without it *)
Theorem sidctl_version_failure_refuted : forall b env l f daemon g, sets_format TABLE l f -> (forall msg, request 6 f msg -> daemon msg = g) -> failed g ->
  exists t, sidctl b env l [B "version"] daemon = Ok (Run t false true) /\
  match f with
  | JSON => parse t = Some (both_versions (b_vsn b) (JObj []))
  | TABLE => t = B "SIDCTL_VERSION:" ++ [LF] ++ own_lines (B ": ") (b_vsn b) ++ [LF] ++ B "SID_VERSION:" ++ [LF]
  | ENV => t = own_lines (B "=") (b_vsn b)
  end.
Proof. exact unanswered_lemma. Qed.
Print Assumptions sidctl_version_failure_refuted.
(* refuted: what version prints in JSON is JSON.  An answer of success without data leaves a member without value *)
Theorem sidctl_version_json_refuted : forall b env l daemon g s p, sets_format TABLE l JSON -> (forall msg, request 6 JSON msg -> daemon msg = g) -> reply s p [] g -> N.odd s = false ->
  exists t, sidctl b env l [B "version"] daemon = Ok (Run t false true) /\ parse t = None.
Proof. exact answered_empty. Qed.
Print Assumptions sidctl_version_json_refuted.
(* the first option that ends the run decides; the last format wins; anything but one known command is refused without asking the daemon *)
Theorem sidctl_options_end : forall b env l g r args daemon o, sets_format TABLE l g ->
  (o = OHelp /\ r = Run (b_usage b) false true \/ o = OVersion /\ r = Run (b_about b) false true \/ o = OBad /\ r = Run [] true false
   \/ exists s, o = OFormat s /\ (forall f, ~ names_format s f) /\ r = Run [] true false) ->
  forall l', sidctl b env (l ++ o :: l') args daemon = Ok r.
Proof. exact options_end. Qed.
Print Assumptions sidctl_options_end.
Theorem sidctl_usage : forall b env l g args daemon, sets_format TABLE l g ->
  (length args <> 1 \/ exists name, args = [name] /\ forall c n, named c n -> 6 <= c -> name <> B n) -> sidctl b env l args daemon = Ok (Run [] true false).
Proof. exact usage_lemma. Qed.
Print Assumptions sidctl_usage.

Definition sc_built : built := Built (B "Usage: sidctl") (B "about") (Vsn 2 0 0 9).
Definition sc_answer (s : N) (body : bytes) : got := inl (Rsl (le 8 s ++ ascii_of_nat 2 :: ascii_of_nat 4 :: le 2 0 ++ body) None).
Definition sc_mapped (body : bytes) : got := inl (Rsl (le 8 0 ++ ascii_of_nat 2 :: ascii_of_nat 4 :: le 2 0) (Some (le 4 7 ++ body))).
Definition sc_daemon (cmd : nat) (f : fmt) (g : got) (msg : bytes) : got := if list_eq_dec ascii_dec msg (le 8 0 ++ ascii_of_nat 2 :: ascii_of_nat cmd :: le 2 (format_number f)) then g else sc_answer 1 [].
Example sc_asked : forall f g msg, request 7 f msg -> sc_daemon 7 f g msg = g.
Proof. intros f g msg ->. unfold sc_daemon. rewrite app_nil_r. destruct (list_eq_dec ascii_dec _ _) as [_|N]; [reflexivity|elim N; reflexivity]. Qed.
Example sc_asked_version : forall f g msg, request 6 f msg -> sc_daemon 6 f g msg = g.
Proof. intros f g msg ->. unfold sc_daemon. rewrite app_nil_r. destruct (list_eq_dec ascii_dec _ _) as [_|N]; [reflexivity|elim N; reflexivity]. Qed.
Example sc_reply : forall body, replied 0 body (sc_answer 0 body).
Proof. intros body. left. exists 2. eexists. split; [reflexivity|]. split; [lia|]. split; [lia|reflexivity]. Qed.
Example sc_reply_mapped : forall body, replied 0 body (sc_mapped body).
Proof. intros body. right. exists 2, (le 8 0 ++ ascii_of_nat 2 :: ascii_of_nat 4 :: le 2 0), [], (le 4 7). split; [reflexivity|]. split; [lia|]. split; [lia|]. split; reflexivity. Qed.
Example sc_failed : failed (inr (-111)%Z) /\ failed (sc_answer 1 (B "x")).
Proof. split; [left; eexists; reflexivity|right]. exists 1%N, (B "x"). split; [reflexivity|]. left. exists 2. eexists. split; [reflexivity|]. split; [lia|]. split; [lia|reflexivity]. Qed.
Definition sc_opts : list opt := [OFormat (B "env"); OVerbose; OFormat (B "JsoN")].
Example sc_format : sets_format TABLE sc_opts JSON.
Proof.
  apply (Sf_format _ _ ENV); [unfold names_format; repeat (constructor; [left; reflexivity|]); constructor|]. apply Sf_verbose. apply (Sf_format _ _ JSON); [|apply Sf_none]. unfold names_format.
  cbn [format_name B list_ascii_of_string]. constructor; [right; vm_compute; intuition discriminate|]. constructor; [left; reflexivity|]. constructor; [left; reflexivity|]. constructor; [right; vm_compute; intuition discriminate|]. constructor.
Qed.
Example sc_dump : sidctl sc_built [] sc_opts [B "dbdump"] (sc_daemon 7 JSON (sc_mapped (B "{}" ++ [NUL]))) = Ok (Run (B "{}") false true).
Proof. vm_compute. reflexivity. Qed.
Example sc_dump_gone : sidctl sc_built [] sc_opts [B "dbdump"] (fun _ => inr (-111)%Z) = Ok (Run [] false false).
Proof. vm_compute. reflexivity. Qed.
Example sc_version_env : sidctl sc_built [] [OFormat (B "ENV")] [B "version"] (sc_daemon 6 ENV (sc_answer 0 (emits ENV (version 2 0 1 3))))
  = Ok (Run (B "SIDCTL_PROTOCOL=2" ++ [LF] ++ B "SIDCTL_MAJOR=0" ++ [LF] ++ B "SIDCTL_MINOR=0" ++ [LF] ++ B "SIDCTL_RELEASE=9" ++ [LF]
          ++ B "SID_IFC_PROTOCOL=2" ++ [LF] ++ B "SID_MAJOR=0" ++ [LF] ++ B "SID_MINOR=1" ++ [LF] ++ B "SID_RELEASE=3" ++ [LF]) false true).
Proof. vm_compute. reflexivity. Qed.
Example sc_version_gone : (let! r := sidctl sc_built [] sc_opts [B "version"] (fun _ => inr (-111)%Z) in Ok (parse (out r), success r)) = Ok (Some (both_versions (Vsn 2 0 0 9) (JObj [])), true).
Proof. vm_compute. reflexivity. Qed.
Example sc_version_empty : (let! r := sidctl sc_built [] sc_opts [B "version"] (sc_daemon 6 JSON (sc_answer 0 [])) in Ok (parse (out r), success r)) = Ok (None, true).
Proof. vm_compute. reflexivity. Qed.
Example sc_bad_format : forall f, ~ names_format (B "xml") f.
Proof. intros f H. apply format_lemma in H. discriminate H. Qed.
Example sc_unknown : forall c n, named c n -> 6 <= c -> B "scan" <> B n.
Proof. intros c n Hn L. do 6 (destruct c as [|c]; [lia|]). do 5 (destruct c as [|c]; [cbn in Hn; subst n; discriminate|]). elim Hn. Qed.
