From Verif Require Import Base UtilStr_Model UtilStr_Spec UbrDb_Model UbrRec_Model UbrRec_Proofs UbrMsg_Model UbrMsg_Spec UbrMsg_Proofs UbrPerm_Spec Ifc_Model Ifc_Spec Ifc_Proofs Usid_Model Usid_Spec Usid_Proofs
  Fmt_Model Json_Spec Fmt_Spec Fmt_Proofs Fmt_Proofs2 Doc_Model Doc_Proofs3 Sidctl_Model Sidctl_Spec.
Local Open Scope nat_scope.

Lemma asked env cmd f daemon g : 6 <= cmd <= 10 -> (forall msg, request cmd f msg -> daemon msg = g) -> ifc_request env (Req cmd (fmt_flag f) 0 no_checkpoint None 0) daemon = g.
Proof.
  intros C H. unfold ifc_request. destruct (req_message env _) as [msg|r] eqn:E.
  - apply H. destruct (request_lemma env (Req cmd (fmt_flag f) 0 no_checkpoint None 0) msg) as (body & Hh & Hb); [cbn; lia|exact E|]. cbn [q_seqnum q_cmd q_flags] in Hh.
    unfold request. rewrite Hb in Hh; [destruct f; exact Hh|intros R; destruct f; discriminate R|]. unfold device_command. cbn. lia.
  - exfalso. revert E. unfold req_message. rewrite raw_lemma. replace (N.testbit _ 2) with false by (destruct f; reflexivity).
    replace (q_cmd _ =? CMD_SCAN) with false by (symmetry; apply Nat.eqb_neq; cbn; unfold CMD_SCAN; lia). replace (q_cmd _ =? CMD_CHECKPOINT) with false by (symmetry; apply Nat.eqb_neq; cbn; unfold CMD_CHECKPOINT; lia). discriminate.
Qed.
Lemma replied_parts s body g : replied s body g -> exists l, g = inl l /\ rsl_status (Some l) = Ok (0%Z, s)
  /\ (N.odd s = true -> rsl_data (Some l) = Ok None) /\ (N.odd s = false -> body <> [] -> rsl_data (Some l) = Ok (Some body)).
Proof.
  intros [(p & R)|(p & msg & b & size & H & Hp & Hs & Ls & ->)].
  - destruct (reply_parts _ _ _ _ R) as (l & -> & A1 & _ & A3). exists l. split; [reflexivity|]. split; [exact A1|]. rewrite A3. split; [intros ->; reflexivity|intros -> N; destruct body; [contradiction|reflexivity]].
  - destruct (header_parts msg s p 4 0 b H Hp ltac:(lia) Hs) as (A1 & A2 & _). exists (Rsl msg (Some (size ++ body))). split; [reflexivity|].
    unfold rsl_data, rsl_status. cbn [l_msg l_shm]. rewrite A1, A2. cbn [obind]. split; [reflexivity|]. split; [intros ->; reflexivity|intros -> _].
    rewrite <- Ls. rewrite skipn_app, skipn_all, Nat.sub_diag. reflexivity.
Qed.
Lemma cmd_fails env cmd f daemon g : 6 <= cmd <= 10 -> (forall msg, request cmd f msg -> daemon msg = g) -> failed g -> sid_cmd env cmd f daemon = Ok ([], (-1)%Z).
Proof.
  intros C H F. unfold sid_cmd. rewrite (asked env cmd f daemon g C H). destruct F as [(r & ->)|(s & body & Od & R)]; [reflexivity|].
  destruct (replied_parts _ _ _ R) as (l & -> & A1 & A2 & _). rewrite (A2 Od). cbn [obind]. rewrite A1. cbn [obind]. rewrite Od. reflexivity.
Qed.
Lemma cmd_prints env cmd f daemon g s t rest : 6 <= cmd <= 10 -> (forall msg, request cmd f msg -> daemon msg = g) -> replied s (t ++ NUL :: rest) g -> N.odd s = false -> no_nul t ->
  sid_cmd env cmd f daemon = Ok (t, 0%Z).
Proof.
  intros C H R Ev N. unfold sid_cmd. rewrite (asked env cmd f daemon g C H). destruct (replied_parts _ _ _ R) as (l & -> & _ & _ & A). rewrite A; [|exact Ev|destruct t; discriminate].
  cbn [obind]. rewrite string_ok by exact N. reflexivity.
Qed.
Lemma cmd_unended env cmd f daemon g s t : 6 <= cmd <= 10 -> (forall msg, request cmd f msg -> daemon msg = g) -> replied s t g -> N.odd s = false -> no_nul t -> t <> [] ->
  sid_cmd env cmd f daemon = UB.
Proof.
  intros C H R Ev N Ne. unfold sid_cmd. rewrite (asked env cmd f daemon g C H). destruct (replied_parts _ _ _ R) as (l & -> & _ & _ & A). rewrite A; [|exact Ev|exact Ne].
  cbn [obind]. unfold string_at. rewrite strlen_none by exact N. reflexivity.
Qed.
Lemma cmd_nodata env cmd f daemon g s p : 6 <= cmd <= 10 -> (forall msg, request cmd f msg -> daemon msg = g) -> reply s p [] g -> N.odd s = false ->
  sid_cmd env cmd f daemon = Ok ([], 0%Z).
Proof.
  intros C H R Ev. unfold sid_cmd. rewrite (asked env cmd f daemon g C H). destruct (reply_parts _ _ _ _ R) as (l & -> & A1 & _ & A3). rewrite A3, Ev. cbn [obind]. rewrite A1. cbn [obind]. rewrite Ev. reflexivity.
Qed.

(* options *)
Lemma lower_letter c x : (97 <= byteN c <= 122)%N -> (lower x = c <-> letter_of c x).
Proof.
  assert (H : forallb (fun k => forallb (fun m => let c := ascii_of_nat k in let x := ascii_of_nat m in
     implb ((97 <=? byteN c)%N && (byteN c <=? 122)%N) (Bool.eqb (Ascii.eqb (lower x) c) (Ascii.eqb x c || ((byteN c =? byteN x + 32)%N && (65 <=? byteN x)%N && (byteN x <=? 90)%N)))) (seq 0 256)) (seq 0 256) = true) by (vm_compute; reflexivity).
  rewrite forallb_forall in H. specialize (H (nat_of_ascii c)). assert (Ic : In (nat_of_ascii c) (seq 0 256)) by (apply in_seq; pose proof (nat_ascii_bounded c); lia). specialize (H Ic). rewrite forallb_forall in H.
  specialize (H (nat_of_ascii x)). assert (Ix : In (nat_of_ascii x) (seq 0 256)) by (apply in_seq; pose proof (nat_ascii_bounded x); lia). specialize (H Ix). cbv zeta in H. rewrite !ascii_nat_embedding in H.
  intros L. replace ((97 <=? byteN c)%N && (byteN c <=? 122)%N) with true in H by (symmetry; apply andb_true_iff; split; apply N.leb_le; lia). cbn [implb] in H. apply Bool.eqb_prop in H.
  unfold letter_of. split.
  - intros E. rewrite E, Ascii.eqb_refl in H. symmetry in H. apply orb_true_iff in H as [H|H]; [left; apply Ascii.eqb_eq, H|right]. apply andb_true_iff in H as [H H3]. apply andb_true_iff in H as [H1 H2]. lia.
  - intros E. apply Ascii.eqb_eq. rewrite H. apply orb_true_iff. destruct E as [->|(E1 & E2)]; [left; apply Ascii.eqb_refl|right]. rewrite !andb_true_iff. lia.
Qed.
Lemma caseeq_name s w : Forall (fun c => (97 <= byteN c <= 122)%N) w -> (strcaseeq s w = true <-> Forall2 letter_of w s).
Proof.
  intros F. unfold strcaseeq. assert (Lw : forall c, (97 <= byteN c <= 122)%N -> lower c = c) by (intros c Hc; apply lower_letter; [exact Hc|left; reflexivity]).
  assert (E : map lower s = map lower w <-> Forall2 letter_of w s).
  { revert s. induction F as [|c w Hc F IH]; intros [|x s]; cbn [map]; split; intros H; try discriminate H; try (inversion H; fail); try constructor; try reflexivity.
    - injection H as H1 H2. apply lower_letter; [exact Hc|]. rewrite H1. apply Lw, Hc.
    - injection H as H1 H2. apply IH, H2.
    - inversion H as [|? ? ? ? H1 H2]; subst. f_equal; [rewrite (proj2 (lower_letter c x Hc) H1); symmetry; apply Lw, Hc|apply IH, H2]. }
  rewrite <- E. destruct (list_eq_dec ascii_dec _ _); intuition congruence.
Qed.
Lemma names_letters f : Forall (fun c => (97 <= byteN c <= 122)%N) (format_name f).
Proof. apply Forall_forall. intros c. destruct f; cbn [format_name B list_ascii_of_string In]; intros H; decompose [or] H; try contradiction; subst c; cbv; split; discriminate. Qed.
Lemma letters_length w s : Forall2 letter_of w s -> length w = length s.
Proof. induction 1; cbn [length]; congruence. Qed.
Lemma name_one s f g : names_format s f -> names_format s g -> f = g.
Proof.
  unfold names_format. intros A C. assert (L : length (format_name f) = length (format_name g)).
  { clear - A C. pose proof (letters_length _ _ A) as X. pose proof (letters_length _ _ C) as Y. congruence. }
  destruct f, g; try reflexivity; discriminate L.
Qed.
Lemma format_lemma s f : get_format s = Some f <-> names_format s f.
Proof.
  unfold get_format. pose proof (caseeq_name s (B "json") (names_letters JSON)) as J. pose proof (caseeq_name s (B "env") (names_letters ENV)) as E. pose proof (caseeq_name s (B "table") (names_letters TABLE)) as T.
  change (Forall2 letter_of (B "json") s) with (names_format s JSON) in J. change (Forall2 letter_of (B "env") s) with (names_format s ENV) in E. change (Forall2 letter_of (B "table") s) with (names_format s TABLE) in T.
  destruct (strcaseeq s (B "json")) eqn:Ej.
  { pose proof (proj1 J eq_refl) as Hj. split; [intros X; injection X as <-; exact Hj|intros X; f_equal; exact (name_one _ _ _ Hj X)]. }
  destruct (strcaseeq s (B "env")) eqn:Ee.
  { pose proof (proj1 E eq_refl) as He. split; [intros X; injection X as <-; exact He|intros X; f_equal; exact (name_one _ _ _ He X)]. }
  destruct (strcaseeq s (B "table")) eqn:Et.
  { pose proof (proj1 T eq_refl) as Ht. split; [intros X; injection X as <-; exact Ht|intros X; f_equal; exact (name_one _ _ _ Ht X)]. }
  split; [discriminate|]. intros X. exfalso. destruct f; [apply T in X|apply J in X|apply E in X]; discriminate X.
Qed.
Lemma options_lemma b f l g : sets_format f l g -> forall l', options b f (l ++ l') = options b g l'.
Proof. induction 1 as [f|f l g _ IH|f s h l g Hn _ IH]; intros l'; [reflexivity|exact (IH l')|]. cbn [app options]. rewrite (proj2 (format_lemma s h) Hn). exact (IH l'). Qed.
Lemma options_all b f l g : sets_format f l g -> options b f l = inl g.
Proof. intros H. rewrite <- (app_nil_r l), (options_lemma b f l g H). reflexivity. Qed.
Lemma options_end b env l g r args daemon o : sets_format TABLE l g ->
  (o = OHelp /\ r = Run (b_usage b) false true \/ o = OVersion /\ r = Run (b_about b) false true \/ o = OBad /\ r = Run [] true false
   \/ exists s, o = OFormat s /\ (forall f, ~ names_format s f) /\ r = Run [] true false) ->
  forall l', sidctl b env (l ++ o :: l') args daemon = Ok r.
Proof.
  intros S C l'. unfold sidctl. rewrite (options_lemma b TABLE l g S). destruct C as [(-> & ->)|[(-> & ->)|[(-> & ->)|(s & -> & N & ->)]]]; try reflexivity.
  cbn [options]. destruct (get_format s) as [f|] eqn:E; [elim (N f); apply format_lemma, E|reflexivity].
Qed.
Lemma usage_lemma b env l g args daemon : sets_format TABLE l g ->
  (length args <> 1 \/ exists name, args = [name] /\ forall c n, named c n -> 6 <= c -> name <> B n) -> sidctl b env l args daemon = Ok (Run [] true false).
Proof.
  intros S C. unfold sidctl. rewrite (options_all b TABLE l g S). destruct C as [C|(name & -> & N)]; [destruct args as [|a [|? ?]]; try reflexivity; elim C; reflexivity|].
  assert (X : exists c, cmd_name_to_type (Some name) = Ok c /\ c < 6).
  { destruct (in_dec (list_eq_dec ascii_dec) name (map B ["undefined"; "unknown"; "active"; "checkpoint"; "reply"; "scan"]%string)) as [I|I].
    - cbn [map In] in I. decompose [or] I; try contradiction; subst name; (eexists; split; [vm_compute; reflexivity|lia]).
    - exists 1. split; [|lia]. apply unknown_lemma. intros c n Hn E. destruct (le_lt_dec 6 c) as [L|L]; [exact (N c n Hn L E)|].
      apply I. do 6 (destruct c as [|c]; [cbn in Hn; subst n; rewrite E; cbn [map In]; tauto|]). lia. }
  destruct X as (c & -> & L). cbn [obind]. replace (c =? CMD_VERSION) with false by (symmetry; apply Nat.eqb_neq; unfold CMD_VERSION; lia).
  replace (c =? CMD_DBDUMP) with false by (symmetry; apply Nat.eqb_neq; unfold CMD_DBDUMP; lia). replace (c =? CMD_DBSTATS) with false by (symmetry; apply Nat.eqb_neq; unfold CMD_DBSTATS; lia).
  replace (c =? CMD_RESOURCES) with false by (symmetry; apply Nat.eqb_neq; unfold CMD_RESOURCES; lia). replace (c =? CMD_DEVICES) with false by (symmetry; apply Nat.eqb_neq; unfold CMD_DEVICES; lia). reflexivity.
Qed.
Lemma data_run b env l f cmd name daemon : sets_format TABLE l f -> shows_data cmd name ->
  6 <= cmd <= 10 /\ sidctl b env l [B name] daemon = let! (o, r) := sid_cmd env cmd f daemon in Ok (Run o false (negb (r <? 0)%Z)).
Proof.
  intros S (Hn & L). assert (Lc : cmd <= 10) by (do 11 (destruct cmd as [|cmd]; [lia|]); elim Hn). split; [lia|]. unfold sidctl. rewrite (options_all b TABLE l f S). destruct (names_lemma _ _ Hn) as (_ & ->). cbn [obind].
  do 7 (destruct cmd as [|cmd]; [lia|]). do 4 (destruct cmd as [|cmd]; [reflexivity|]). lia.
Qed.
Lemma version_run b env l f daemon : sets_format TABLE l f ->
  sidctl b env l [B "version"] daemon = let! (o, r) := sid_cmd_version env (b_vsn b) f daemon in Ok (Run o false (negb (r <? 0)%Z)).
Proof. intros S. unfold sidctl. rewrite (options_all b TABLE l f S). destruct (names_lemma 6 "version" eq_refl) as (_ & ->). reflexivity. Qed.

(* the version document *)
Definition own_ops (v : vsn) : list op := [FldUint 1 (B "SIDCTL_PROTOCOL") (v_protocol v) false;
   FldUint 1 (B "SIDCTL_MAJOR") (v_major v) true; FldUint 1 (B "SIDCTL_MINOR") (v_minor v) true; FldUint 1 (B "SIDCTL_RELEASE") (v_release v) true].
Lemma own_text v : exists s, jt (own_version v) s /\ exists w1 w2, ws w1 /\ ws w2 /\ emits JSON (version_head v) = B "{" ++ w1 ++ quoted (B "SIDCTL_VERSION") ++ B ":" ++ w2 ++ s ++ B "," ++ LF :: quoted (B "SID_VERSION") ++ B ":" ++ [LF].
Proof.
  assert (F : flds_calls binary false [(B "SIDCTL_PROTOCOL", JInt (Z.of_N (v_protocol v))); (B "SIDCTL_MAJOR", JInt (Z.of_N (v_major v)));
        (B "SIDCTL_MINOR", JInt (Z.of_N (v_minor v))); (B "SIDCTL_RELEASE", JInt (Z.of_N (v_release v)))] (own_ops v)).
  { unfold own_ops. repeat (match goal with |- flds_calls _ _ _ (?o :: ?r) => change (o :: r) with ([o] ++ r) end; apply Fs_more; [apply F_uint; apply plain_dec; reflexivity|]). apply Fs_none. }
  destruct (proj1 (proj2 calls_text) _ _ _ F) as (s & J & E). exists (B "{" ++ s ++ [LF] ++ B "}"). split; [constructor; [exact J|apply ws_lf, ws_nil]|]. exists [LF], [LF; LF]. split; [apply ws_lf, ws_nil|]. split; [apply ws_lf, ws_lf, ws_nil|].
  cbn [comma app] in E. change (version_head v) with ([DocStart 0; ElmName 0 (B "SIDCTL_VERSION") false; ElmStart 0 false] ++ own_ops v ++ [ElmEnd 0; ElmName 0 (B "SID_VERSION") true]). rewrite !emits_app, E.
  unfold emits. cbn [map List.concat emit break indent repeat]. repeat (rewrite <- ?app_assoc; cbn [app B list_ascii_of_string indent repeat]). reflexivity.
Qed.
Lemma both_text v d body : (exists w s w', body = w ++ s ++ w' /\ ws w /\ jt d s /\ ws w') -> parse (emits JSON (version_head v) ++ body ++ emits JSON [DocEnd 0]) = Some (both_versions v d).
Proof.
  intros (w & s & w' & -> & W & J & W'). destruct (own_text v) as (so & Jo & w1 & w2 & W1 & W2 & ->).
  assert (M : jms [(B "SIDCTL_VERSION", own_version v); (B "SID_VERSION", d)] (w1 ++ quoted (B "SIDCTL_VERSION") ++ B ":" ++ w2 ++ so ++ (B "," ++ ([LF] ++ quoted (B "SID_VERSION") ++ B ":" ++ (LF :: w) ++ s ++ [])))).
  { apply (jms_cons _ _ w1 w2 so [(B "SID_VERSION", d)]); [apply plain_dec; reflexivity|exact W1|exact W2|exact Jo|]. apply (jms_cons _ _ [LF] (LF :: w) s [] []); [apply plain_dec; reflexivity|apply ws_lf, ws_nil|apply ws_lf, W|exact J|constructor]. }
  pose proof (jt_obj _ _ (w' ++ [LF]) M) as O. assert (Ww : ws (w' ++ [LF])) by (apply ws_app; [exact W'|apply ws_lf, ws_nil]). specialize (O Ww).
  match type of O with jt _ ?x => set (t := x) in O end. match goal with |- parse ?x = _ => replace x with ([] ++ t ++ [LF]) end.
  2: { unfold t, emits. cbn [map List.concat emit indent repeat]. repeat (rewrite <- ?app_assoc; cbn [app B list_ascii_of_string indent repeat]). reflexivity. }
  unfold parse. rewrite (proj1 value_lemma _ _ O).
  - reflexivity.
  - rewrite !app_length. lia.
  - apply ws_nil.
  - repeat split.
Qed.
Lemma empty_text v : parse (emits JSON (version_head v) ++ [] ++ emits JSON [DocEnd 0]) = None.
Proof.
  destruct (own_text v) as (so & Jo & w1 & w2 & W1 & W2 & ->).
  set (r := LF :: quoted (B "SID_VERSION") ++ B ":" ++ [LF] ++ emits JSON [DocEnd 0]).
  assert (Hr : forall f, members f r = None) by (intros [|[|f]]; reflexivity).
  assert (M : jms [(B "SIDCTL_VERSION", own_version v)] (w1 ++ quoted (B "SIDCTL_VERSION") ++ B ":" ++ w2 ++ so ++ [])) by (apply (jms_cons _ _ w1 w2 so [] []); [apply plain_dec; reflexivity|exact W1|exact W2|exact Jo|constructor]).
  pose proof (members_bad _ _ M) as X. cbv iota in X. set (z := (w1 ++ quoted (B "SIDCTL_VERSION") ++ B ":" ++ w2 ++ so ++ []) ++ B "," ++ r) in X.
  match goal with |- parse ?x = _ => replace x with ("{"%char :: z) end.
  2: { unfold z, r. repeat (rewrite <- ?app_assoc; cbn [app B list_ascii_of_string]). reflexivity. }
  unfold parse. cbn [value skip]. change (is_ws "{") with false. cbv iota. change (is_char "{" "{") with true. cbv iota.
  destruct (skip z) as [|d zr] eqn:Sz; [reflexivity|]. assert (Hd : is_char "}" d = false).
  { unfold z in Sz. rewrite <- app_assoc in Sz. rewrite skip_ws in Sz; [|exact W1|reflexivity]. injection Sz as <- _. reflexivity. }
  rewrite Hd. pose proof (X (length ("{"%char :: z)) r) as X2. fold z in X2. rewrite X2; [reflexivity| |exact Hr]. unfold z. cbn [length]. rewrite (app_length _ (B "," ++ r)). lia.
Qed.
Lemma uint_no_nul u : no_nul (uint_chars u).
Proof. intros I. induction u; cbn [uint_chars In] in I; try contradiction; (destruct I as [I|I]; [discriminate I|exact (IHu I)]). Qed.
Lemma no_nul_app a b : no_nul a -> no_nul b -> no_nul (a ++ b).
Proof. unfold no_nul. rewrite in_app_iff. tauto. Qed.
Lemma doc_parts f p a b c : exists t, emits f (version p a b c) = t ++ [NUL] /\ no_nul t.
Proof.
  assert (P : forall n, no_nul (print_u n)) by (intros n; apply uint_no_nul). exists (emits f (removelast (version p a b c))). split.
  - change [NUL] with (emits f [NullByte]). rewrite <- emits_app. reflexivity.
  - cbn [removelast version]. unfold emits. cbn [map List.concat emit]. destruct f; cbn [break indent repeat join_str]; unfold quoted; repeat apply no_nul_app; try apply P; cbv; intuition discriminate.
Qed.
Lemma doc_json p a b c : exists t, emits JSON (version p a b c) = t ++ [NUL] /\ no_nul t /\ exists w s w', t = w ++ s ++ w' /\ ws w
  /\ jt (JObj [(B "SID_IFC_PROTOCOL", JInt (Z.of_N p)); (B "SID_MAJOR", JInt (Z.of_N a)); (B "SID_MINOR", JInt (Z.of_N b)); (B "SID_RELEASE", JInt (Z.of_N c))]) s /\ ws w'.
Proof.
  destruct (doc_parts JSON p a b c) as (t & E & N). exists t. split; [exact E|]. split; [exact N|].
  assert (Et : t = emits JSON (removelast (version p a b c))).
  { change (version p a b c) with (removelast (version p a b c) ++ [NullByte]) in E. rewrite emits_app in E. change (emits JSON [NullByte]) with [NUL] in E. apply app_inv_tail in E. symmetry. exact E. }
  rewrite Et. apply doc_text. cbn [removelast version].
  match goal with |- doc_calls _ _ [?s0; ?f1; ?f2; ?f3; ?f4; ?e] => change [s0; f1; f2; f3; f4; e] with (s0 :: ([f1] ++ [f2] ++ [f3] ++ [f4] ++ []) ++ [e]) end.
  constructor. repeat (apply Fs_more; [apply F_uint; apply plain_dec; reflexivity|]). apply Fs_none.
Qed.

Lemma shows_lemma b env l f cmd name daemon g s t rest : sets_format TABLE l f -> shows_data cmd name -> (forall msg, request cmd f msg -> daemon msg = g) -> replied s (t ++ NUL :: rest) g -> N.odd s = false -> no_nul t ->
  sidctl b env l [B name] daemon = Ok (Run t false true).
Proof. intros S C H R Ev N. destruct (data_run b env l f cmd name daemon S C) as (L & ->). rewrite (cmd_prints env cmd f daemon g s t rest L H R Ev N). reflexivity. Qed.
Lemma empty_lemma b env l f cmd name daemon g s p : sets_format TABLE l f -> shows_data cmd name -> (forall msg, request cmd f msg -> daemon msg = g) -> reply s p [] g -> N.odd s = false ->
  sidctl b env l [B name] daemon = Ok (Run [] false true).
Proof. intros S C H R Ev. destruct (data_run b env l f cmd name daemon S C) as (L & ->). rewrite (cmd_nodata env cmd f daemon g s p L H R Ev). reflexivity. Qed.
Lemma fails_lemma b env l f cmd name daemon g : sets_format TABLE l f -> shows_data cmd name -> (forall msg, request cmd f msg -> daemon msg = g) -> failed g ->
  sidctl b env l [B name] daemon = Ok (Run [] false false).
Proof. intros S C H F. destruct (data_run b env l f cmd name daemon S C) as (L & ->). rewrite (cmd_fails env cmd f daemon g L H F). reflexivity. Qed.
Lemma unended_lemma b env l f cmd name daemon g s t : sets_format TABLE l f -> named cmd name -> 6 <= cmd -> (forall msg, request cmd f msg -> daemon msg = g) -> replied s t g -> N.odd s = false -> no_nul t -> t <> [] ->
  sidctl b env l [B name] daemon = UB.
Proof.
  intros S Nm L6 H R Ev N Ne. destruct (Nat.eq_dec cmd 6) as [->|N6].
  - cbn in Nm. subst name. rewrite (version_run b env l f daemon S). unfold sid_cmd_version; change CMD_VERSION with 6. rewrite (cmd_unended env 6 f daemon g s t ltac:(lia) H R Ev N Ne). reflexivity.
  - assert (L7 : 7 <= cmd) by lia. destruct (data_run b env l f cmd name daemon S (conj Nm L7)) as (L & ->). rewrite (cmd_unended env cmd f daemon g s t L H R Ev N Ne). reflexivity.
Qed.
Lemma flags_format f : flags_to_format (format_number f) = f. Proof. destruct f; reflexivity. Qed.
Lemma answered_lemma b env l f daemon g s p x y z : sets_format TABLE l f -> (forall msg, request 6 f msg -> daemon msg = g) -> replied s (emits (flags_to_format (format_number f)) (version p x y z)) g -> N.odd s = false ->
  exists t, sidctl b env l [B "version"] daemon = Ok (Run t false true) /\
  match f with
  | JSON => parse t = Some (both_versions (b_vsn b) (JObj [(B "SID_IFC_PROTOCOL", JInt (Z.of_N p)); (B "SID_MAJOR", JInt (Z.of_N x)); (B "SID_MINOR", JInt (Z.of_N y)); (B "SID_RELEASE", JInt (Z.of_N z))]))
  | TABLE => t = B "SIDCTL_VERSION:" ++ [LF] ++ own_lines (B ": ") (b_vsn b) ++ [LF] ++ B "SID_VERSION:" ++ [LF] ++ daemon_lines (B ": ") p x y z
  | ENV => t = own_lines (B "=") (b_vsn b) ++ daemon_lines (B "=") p x y z
  end.
Proof.
  intros S H R Ev. rewrite flags_format in R. rewrite (version_run b env l f daemon S). unfold sid_cmd_version; change CMD_VERSION with 6.
  destruct f.
  1, 3: (match goal with H : context [emits ?f _] |- _ => destruct (doc_parts f p x y z) as (t & E & N); assert (Et : t = emits f (removelast (version p x y z))) by
      (change (version p x y z) with (removelast (version p x y z) ++ [NullByte]) in E; rewrite emits_app in E; change (emits f [NullByte]) with [NUL] in E; apply app_inv_tail in E; symmetry; exact E) end;
    rewrite E in R; rewrite (cmd_prints env 6 _ daemon g s t [] ltac:(lia) H R Ev N); cbn [obind]; eexists; split; [reflexivity|];
    rewrite Et; unfold version_head, emits, own_lines, daemon_lines, line; cbn [version removelast map List.concat emit join_str]; repeat (rewrite <- ?app_assoc; cbn [app]); rewrite ?app_nil_r; reflexivity).
  destruct (doc_json p x y z) as (t & E & N & P). rewrite E in R. rewrite (cmd_prints env 6 _ daemon g s t [] ltac:(lia) H R Ev N). cbn [obind]. eexists. split; [reflexivity|]. apply both_text, P.
Qed.
Lemma unanswered_lemma b env l f daemon g : sets_format TABLE l f -> (forall msg, request 6 f msg -> daemon msg = g) -> failed g ->
  exists t, sidctl b env l [B "version"] daemon = Ok (Run t false true) /\
  match f with
  | JSON => parse t = Some (both_versions (b_vsn b) (JObj []))
  | TABLE => t = B "SIDCTL_VERSION:" ++ [LF] ++ own_lines (B ": ") (b_vsn b) ++ [LF] ++ B "SID_VERSION:" ++ [LF]
  | ENV => t = own_lines (B "=") (b_vsn b)
  end.
Proof.
  intros S H F. rewrite (version_run b env l f daemon S). unfold sid_cmd_version; change CMD_VERSION with 6. rewrite (cmd_fails env 6 f daemon g ltac:(lia) H F). cbn [obind]. eexists. split; [reflexivity|]. destruct f.
  - unfold version_head, emits, own_lines, line. cbn. repeat (rewrite <- ?app_assoc; cbn [app]). rewrite ?app_nil_r. reflexivity.
  - change (emits JSON (if (-1 <? 0)%Z then [DocStart 0; DocEnd 0; DocEnd 0] else [DocEnd 0])) with (emits JSON [DocStart 0; DocEnd 0] ++ emits JSON [DocEnd 0]). cbn [app]. apply both_text. exists [], (B "{" ++ [] ++ [LF] ++ B "}"), [LF].
    split; [reflexivity|]. split; [apply ws_nil|]. split; [constructor; [constructor|apply ws_lf, ws_nil]|apply ws_lf, ws_nil].
  - unfold version_head, emits, own_lines, line. cbn. repeat (rewrite <- ?app_assoc; cbn [app]). rewrite ?app_nil_r. reflexivity.
Qed.
Lemma answered_empty b env l daemon g s p : sets_format TABLE l JSON -> (forall msg, request 6 JSON msg -> daemon msg = g) -> reply s p [] g -> N.odd s = false ->
  exists t, sidctl b env l [B "version"] daemon = Ok (Run t false true) /\ parse t = None.
Proof.
  intros S H R Ev. rewrite (version_run b env l JSON daemon S). unfold sid_cmd_version; change CMD_VERSION with 6. rewrite (cmd_nodata env 6 JSON daemon g s p ltac:(lia) H R Ev). cbn [obind]. eexists. split; [reflexivity|]. apply empty_text.
Qed.
