From Verif Require Import Base UbrCmd_Model CmdMem_Model CmdMem_Spec.
Local Open Scope nat_scope.

Lemma word_eqb_eq a b : word_eqb a b = true <-> a = b.
Proof. split; [destruct a, b; cbn; congruence|intros ->; destruct b; reflexivity]. Qed.
Lemma word_eqb_refl a : word_eqb a a = true.
Proof. now apply word_eqb_eq. Qed.
Lemma word_eqb_neq a b : a <> b -> word_eqb a b = false.
Proof. intros H. destruct (word_eqb a b) eqn:E; [apply word_eqb_eq in E; contradiction|reflexivity]. Qed.
Lemma piece_eqb_eq a b : piece_eqb a b = true <-> a = b.
Proof.
  unfold piece_eqb. destruct a as [w n], b as [v k]. cbn. rewrite andb_true_iff, word_eqb_eq, Nat.eqb_eq. split; [intros [-> ->]; reflexivity|intros H; inversion H; auto].
Qed.
Lemma live_in p l : existsb (piece_eqb p) l = true <-> In p l.
Proof. rewrite existsb_exists. split; [intros (q & H & E); apply piece_eqb_eq in E; now subst|intros H; exists p; split; [exact H|now apply piece_eqb_eq]]. Qed.

(* Words that point to pieces of their own *)
Definition points (m : mem) (w : word) : Prop := forall p, at_word m w = Some p -> fst p = w /\ In p (live m).
Definition drops (m : mem) (ws : list word) : outcome mem := fold_left (fun x w => let! m := x in drop m w) ws (Ok m).
Lemma drops_ub ws : fold_left (fun (x : outcome mem) w => let! m := x in drop m w) ws UB = UB.
Proof. induction ws; cbn; auto. Qed.
Lemma drop_ok m w : points m w -> exists m', drop m w = Ok m' /\ at_word m' = at_word m /\ made m' = made m /\
  (forall p, In p (live m') <-> In p (live m) /\ at_word m w <> Some p).
Proof.
  intros P. unfold drop. destruct (at_word m w) as [p|] eqn:E.
  - destruct (P p E) as [_ L]. apply live_in in L. rewrite L. eexists. split; [reflexivity|]. cbn [at_word live made]. split; [reflexivity|]. split; [reflexivity|].
    intros q. rewrite filter_In, negb_true_iff. split; intros [H K]; split; auto.
    + intros [= ->]. assert (piece_eqb q q = true) by now apply piece_eqb_eq. congruence.
    + destruct (piece_eqb p q) eqn:Q; [|reflexivity]. apply piece_eqb_eq in Q. subst. contradiction.
  - exists m. repeat split; auto; try tauto. discriminate.
Qed.
Lemma drops_ok ws : NoDup ws -> forall m, (forall w, In w ws -> points m w) -> exists m', drops m ws = Ok m' /\ at_word m' = at_word m /\
  (forall p, In p (live m') <-> In p (live m) /\ (forall w, In w ws -> at_word m w <> Some p)).
Proof.
  intros N. induction N as [|w ws F N IH]; intros m P.
  - exists m. unfold drops. cbn. repeat split; auto; intros; try tauto.
  - unfold drops. cbn [fold_left obind]. destruct (drop_ok m w) as (m1 & E & A & _ & L); [apply P; now left|]. rewrite E.
    destruct (IH m1) as (m2 & E2 & A2 & L2).
    + intros v V p Q. rewrite A in Q. destruct (P v) with (p := p) as [F1 I1]; [now right|exact Q|]. split; [exact F1|]. apply L. split; [exact I1|].
      intros Q2. destruct (P w) with (p := p) as [F2 _]; [now left|exact Q2|]. rewrite <- F2 in F. rewrite <- F1 in V. contradiction.
    + exists m2. unfold drops in E2. rewrite E2. rewrite A2, A. split; [reflexivity|]. split; [reflexivity|]. intros p. rewrite L2, L, A. split.
      * intros [[H1 H2] H3]. split; [exact H1|]. intros v [<- | V]; auto.
      * intros [H1 H2]. repeat split; auto; [apply H2; now left|]. intros v V. apply H2. now right.
Qed.

Ltac sp := repeat match goal with |- _ /\ _ => split end.
Ltac side := first [discriminate | (intros; split; discriminate) | (intros; discriminate) | (intros; congruence)].
Section Command.
  Variable lg : lreg.
  Variable key_lost : Prop.
  (* Pieces that no word points to any more *)
  Definition lost_ok (p : piece) : Prop := (fst p = W_key /\ key_lost) \/ (asks_main (l_reg lg) = true /\ fst p = W_cmd).
  Definition wf (m : mem) : Prop :=
    (forall w, points m w) /\ (forall p, In p (live m) -> snd p < made m) /\
    (forall p, In p (live m) -> at_word m (fst p) = Some p \/ lost_ok p) /\ (at_word m W_key = None /\ (l_file lg = true -> at_word m W_num = None /\ at_word m W_dsq = None) /\
     (l_scan lg = false -> asks_main (l_reg lg) = false -> at_word m W_cmd = None)).
  Definition is (m : mem) (w : word) : Prop := at_word m w <> None.
  Definition null (m : mem) (w : word) : Prop := at_word m w = None.

  Lemma wf_none : wf none.
  Proof. unfold wf, points. sp; cbn; intros; try split; try discriminate; try contradiction; auto. Qed.
  Lemma take_wf m w : wf m -> null m w \/ (asks_main (l_reg lg) = true /\ w = W_cmd) -> w <> W_key -> (l_file lg = true -> w <> W_num /\ w <> W_dsq) ->
    (l_scan lg = false -> asks_main (l_reg lg) = false -> w <> W_cmd) -> wf (take m w).
  Proof.
    intros (P & F & L & Ky & Kf & Kc) N NK NF NC. unfold take. split; [|split; [|split]]; cbn [at_word live made].
    - intros v p. cbn [at_word live]. destruct (word_eqb v w) eqn:E.
      + apply word_eqb_eq in E. subst. intros [= <-]. cbn. auto.
      + intros Q. destruct (P v p Q). split; [auto|now right].
    - intros p [<- | H]; [cbn; lia|]. apply F in H. lia.
    - intros p [<- | H]; [left; cbn [fst]; now rewrite word_eqb_refl|]. destruct (L p H) as [Q | Q]; [|now right].
      destruct (word_eqb (fst p) w) eqn:E; [|now left]. apply word_eqb_eq in E. destruct N as [N | [N1 N2]]; [unfold null in N; congruence|]. right. right. split; congruence.
    - rewrite word_eqb_neq; auto. split; [exact Ky|]. split; [intros Fl; destruct (NF Fl) as [F1 F2]; rewrite !word_eqb_neq by congruence; auto|].
      intros Sc As. rewrite word_eqb_neq; [auto|]. intros <-. now apply (NC Sc As).
  Qed.
  Lemma take_at m w : is (take m w) w.
  Proof. unfold is, take. cbn. rewrite word_eqb_refl. discriminate. Qed.
  Lemma take_other m w v : v <> w -> at_word (take m w) v = at_word m v.
  Proof. intros H. cbn. now rewrite word_eqb_neq. Qed.
  Lemma drop_clear_wf m w : wf m -> w <> W_key -> exists m', drop_clear m w = Ok m' /\ wf m' /\ null m' w /\ (forall v, v <> w -> at_word m' v = at_word m v) /\
    (forall p, In p (live m') <-> In p (live m) /\ at_word m w <> Some p).
  Proof.
    intros (P & F & L & Ky & Kf & Kc) NK. unfold drop_clear. destruct (drop_ok m w (P w)) as (m1 & E & A & M & D). rewrite E. cbn [obind]. eexists. split; [reflexivity|].
    assert (O : forall v, v <> w -> at_word (set_word m1 w None) v = at_word m v) by (intros v V; cbn; rewrite word_eqb_neq; [now rewrite A|exact V]).
    assert (Z0 : at_word (set_word m1 w None) w = None) by (cbn; now rewrite word_eqb_refl).
    split; [|split; [exact Z0|split; [exact O|exact D]]]. split; [|split; [|split]].
    - intros v p Q. destruct (word_eqb v w) eqn:E2; [apply word_eqb_eq in E2; subst; congruence|].
      assert (V : v <> w) by (intros ->; rewrite word_eqb_refl in E2; discriminate). rewrite O in Q; [|exact V]. destruct (P v p Q) as [F1 I1]. split; [exact F1|].
      cbn [live set_word]. apply D. split; [exact I1|]. intros Q2. destruct (P w p Q2). congruence.
    - intros p H. cbn [live set_word made] in *. rewrite M. apply D in H. apply F. tauto.
    - intros p H. cbn [live set_word] in H. apply D in H. destruct H as [H1 H2]. destruct (L p H1) as [Q | Q]; [|now right]. left. rewrite O; [exact Q|].
      intros W. rewrite W in Q. contradiction.
    - assert (NN : forall v, at_word m v = None -> at_word (set_word m1 w None) v = None) by (intros v V; cbn; destruct (word_eqb v w); [reflexivity|now rewrite A]).
      split; [now apply NN|]. split; [intros Fl; destruct (Kf Fl); split; now apply NN|]. intros Sc As. now apply NN, Kc.
  Qed.
  Lemma access_wf m w : wf m -> is m w -> access m w = Ok m.
  Proof. intros (P & _) I. unfold access. destruct (at_word m w) as [p|] eqn:E; [|now destruct I]. destruct (P w p E) as [_ H]. apply live_in in H. now rewrite H. Qed.
  Lemma clear_wf m : wf m -> asks_main (l_reg lg) = true -> wf (set_word m W_cmd None).
  Proof.
    intros (P & F & L & Ky) A. split; [|split; [|split]].
    - intros v p. cbn [at_word live set_word]. destruct (word_eqb v W_cmd); [discriminate|]. apply P.
    - exact F.
    - intros p H. cbn [at_word live set_word] in *. destruct (L p H) as [Q | Q]; [|now right]. destruct (word_eqb (fst p) W_cmd) eqn:E; [|now left].
      apply word_eqb_eq in E. right. right. auto.
    - destruct Ky as (K1 & K2 & K3). cbn. split; [exact K1|]. split; [exact K2|reflexivity].
  Qed.

  Hypothesis In_lg : In lg commands.
  Lemma scan_reg : l_scan lg = true -> l_reg lg = reg_scan /\ l_file lg = false.
  Proof. unfold commands in In_lg. cbn [In] in In_lg. intuition subst; try discriminate; auto. Qed.
  Lemma other_reg : l_scan lg = false -> stage_count (l_reg lg) = 0 /\ to_main (l_reg lg) = false /\ l_udev lg = false.
  Proof. unfold commands in In_lg. cbn [In] in In_lg. intuition subst; try discriminate; auto. Qed.
  Lemma asks_other : asks_main (l_reg lg) = true -> l_scan lg = false /\ l_reg lg = reg_resources.
  Proof. unfold commands in In_lg. cbn [In] in In_lg. intuition subst; try discriminate; auto. Qed.

  (* Where a command is between two steps *)
  Definition lost_map (m : mem) : Prop := exists p, In p (live m) /\ fst p = W_cmd /\ at_word m W_cmd <> Some p.
  Definition at_first (c : cmd) (m : mem) : Prop :=
    c_state c = C_EXE_SCHED /\ c_prev c = C_INI /\ c_stage c = 1 /\ is m W_res /\ null m W_exp /\ null m W_uns /\
    (asks_main (l_reg lg) = false -> null m W_cmd) /\ (l_file lg = false -> null m W_env) /\ (asks_main (l_reg lg) = true -> c_mem c = true -> is m W_cmd).
  Definition at_wait (c : cmd) (m : mem) : Prop :=
    (c_state c = C_EXE_WAIT \/ (c_state c = C_EXE_SCHED /\ c_prev c = C_EXE_WAIT)) /\ asks_main (l_reg lg) = true /\
    is m W_res /\ null m W_exp /\ null m W_uns /\ (c_mem c = true -> is m W_cmd).
  Definition at_stage (c : cmd) (m : mem) : Prop :=
    ((c_state c = C_STG_WAIT /\ c_stage c = 1) \/ (c_state c = C_EXE_SCHED /\ c_prev c = C_STG_WAIT /\ c_stage c = 2)) /\ l_scan lg = true /\
    null m W_res /\ null m W_exp /\ null m W_uns /\ is m W_cmd.
  Definition at_ack (c : cmd) (m : mem) : Prop :=
    (c_state c = C_EXPBUF_WAIT_ACK \/ (c_state c = C_EXE_SCHED /\ c_prev c = C_EXPBUF_WAIT_ACK)) /\ l_scan lg = true /\
    null m W_exp /\ is m W_uns /\ ((c_stage c = 1 /\ is m W_cmd) \/ (c_stage c = 2 /\ null m W_cmd)).
  Definition at_end (c : cmd) (m : mem) : Prop :=
    (In (c_state c) [C_FIN; C_ERR; C_TIM_OUT] \/ (c_state c = C_EXE_SCHED /\ In (c_prev c) [C_FIN; C_ERR; C_TIM_OUT])) /\ null m W_uns /\
    (c_state c = C_FIN -> (l_scan lg = true -> null m W_cmd) /\ (asks_main (l_reg lg) = true -> lost_map m)) /\
    (c_state c = C_TIM_OUT -> is m W_cmd).
  Definition quiet (c : cmd) : Prop := asks_main (l_reg lg) = false -> ~ In M_Resources (c_sent c).
  Definition placed (c : cmd) (m : mem) : Prop :=
    wf m /\ is m W_prn /\ quiet c /\
    (at_first c m \/ at_wait c m \/ at_stage c m \/ at_ack c m \/ at_end c m).

  (* What a part of the handler gives: no UB, and a result *)
  Definition gives (x : outcome (cm * Z)) (Q : cmd -> mem -> Z -> Prop) : Prop := match x with Ok ((c, m), r) => Q c m r | UB => False end.
  Definition after (c : cmd) (m : mem) (r : Z) : Prop :=
    wf m /\ is m W_prn /\ quiet c /\ c_state c <> C_INI /\
    (if (r <? 0)%Z then True
     else (c_state c = C_FIN /\ (l_scan lg = true -> null m W_cmd) /\ (asks_main (l_reg lg) = true -> lost_map m)) \/
          (c_state c = C_STG_WAIT /\ c_stage c = 1 /\ l_scan lg = true /\ null m W_res /\ null m W_exp /\ is m W_cmd) \/
          (c_state c = C_EXPBUF_WAIT_ACK /\ l_scan lg = true /\ null m W_exp /\ is m W_uns /\ ((c_stage c = 1 /\ is m W_cmd) \/ (c_stage c = 2 /\ null m W_cmd))) \/
          (c_state c = C_EXE_WAIT /\ asks_main (l_reg lg) = true /\ is m W_res /\ null m W_exp /\ null m W_uns /\ (c_mem c = true -> is m W_cmd))).
  (* Between the run of exec and the end of the handler *)
  Definition during (c : cmd) (m : mem) : Prop :=
    wf m /\ is m W_prn /\ quiet c /\ (l_scan lg = true -> (c_stage c = 1 /\ is m W_cmd) \/ (c_stage c = 2 /\ null m W_cmd)) /\
    (asks_main (l_reg lg) = true -> lost_map m).

  Lemma ltb0 : (0 <? 0)%Z = false. Proof. reflexivity. Qed.
  Lemma change_plain c m s t : c_state c <> s -> ~ In s [C_EXE_SCHED; C_STG_WAIT; C_TIM_OUT] ->
    change_m (l_reg lg) (c, m) s t = Ok ((set_state c s (c_stage c) (c_timer c) (c_armed c), m), 0%Z).
  Proof.
    intros N I. unfold change_m, change_state. cbn [fst snd]. destruct (state_eqb (c_state c) s) eqn:E.
    - exfalso. apply N. destruct (c_state c), s; cbn in E; try discriminate; reflexivity.
    - destruct s; try reflexivity; exfalso; apply I; cbn; auto.
  Qed.
  Lemma during_lost c m m' : during c m -> wf m' -> is m' W_prn -> at_word m' W_cmd = at_word m W_cmd ->
    (forall p, fst p = W_cmd -> In p (live m) -> In p (live m')) -> during c m'.
  Proof.
    intros (W & P & Q & C & L) W' P' E K. unfold during, null, is in *. rewrite E. split; [exact W'|split; [exact P'|split; [exact Q|split; [exact C|]]]]. intros A. destruct (L A) as (p & I & F & N). exists p. rewrite E. auto.
  Qed.
  Lemma during_cmd c c' m : during c m -> c_stage c' = c_stage c -> c_sent c' = c_sent c -> during c' m.
  Proof. intros (W & P & Q & C & L) E1 E2. unfold during, quiet in *. rewrite E1, E2. auto. Qed.
  Lemma during_sent c c' m : during c m -> c_stage c' = c_stage c -> c_sent c' = c_sent c ++ [M_Sync] -> during c' m.
  Proof.
    intros (W & P & Q & C & L) E1 E2. unfold during, quiet in *. rewrite E1, E2. sp; auto. intros A I. apply in_app_or in I. destruct I as [I | [I | []]]; [now apply Q|discriminate].
  Qed.
  Lemma during_drop c m w : during c m -> w <> W_cmd -> w <> W_prn -> w <> W_key -> exists m', drop_clear m w = Ok m' /\ during c m' /\ null m' w /\ (forall v, v <> w -> at_word m' v = at_word m v).
  Proof.
    intros D N1 N2 N3. pose proof D as (W & P & _). destruct (drop_clear_wf m w W N3) as (m' & E & W' & Z0 & O & L). exists m'. split; [exact E|]. split; [|split; [exact Z0|exact O]].
    apply during_lost with (m := m); auto.
    - unfold is. now rewrite O by congruence.
    - intros p F I. apply L. split; [exact I|]. intros Q. destruct W as (Pt & _). destruct (Pt w p Q). congruence.
  Qed.
  Lemma after_fail c m r : wf m -> is m W_prn -> quiet c -> c_state c <> C_INI -> (r < 0)%Z -> after c m r.
  Proof. intros. unfold after. assert ((r <? 0)%Z = true) as -> by lia. auto 6. Qed.
  Lemma end_stage_after c m a : during c m -> c_state c <> C_FIN -> c_state c <> C_STG_WAIT -> c_state c <> C_INI -> (l_scan lg = true -> null m W_res /\ null m W_exp) ->
    gives (end_stage_m (l_reg lg) (c, m) a) after.
  Proof.
    intros D N1 N2 N3 R. pose proof D as (W & P & Q & C & L). unfold end_stage_m. cbn [fst].
    destruct (is_last_stage (l_reg lg) c) eqn:La.
    - rewrite change_plain; [|exact N1|cbn; intuition discriminate]. cbn [gives]. unfold after. rewrite ltb0. sp; auto; [cbn; discriminate|]. left. sp; auto.
      intros Sc. destruct (C Sc) as [[St _] | [_ Nu]]; [|exact Nu]. exfalso. destruct (scan_reg Sc) as [Rg _]. rewrite Rg in La. unfold is_last_stage in La. cbn in La.
      rewrite St in La. discriminate.
    - unfold change_m, change_state. cbn [fst snd]. assert (state_eqb (c_state c) C_STG_WAIT = false) as -> by (destruct (c_state c); try reflexivity; congruence).
      rewrite La. destruct (an_timer a <? 0)%Z; cbn [obind gives].
      + apply after_fail; auto. lia.
      + unfold after. rewrite ltb0. sp; auto; [cbn; discriminate|]. right. left.
        destruct (l_scan lg) eqn:Sc.
        * destruct (R eq_refl) as [R1 R2]. cbn. destruct (C eq_refl) as [[St Is] | [St _]]; [auto 8|]. exfalso. destruct (scan_reg Sc) as [Rg _]. rewrite Rg in La.
          unfold is_last_stage in La. cbn in La. rewrite St in La. discriminate.
        * exfalso. destruct (other_reg Sc) as (Z0 & _). unfold is_last_stage in La. rewrite Z0 in La. discriminate.
  Qed.
  Lemma send_res_during c m a c' r : during c m -> send_resbuf c a = (c', r) -> exists m', send_res_m (c, m) a = Ok ((c', m'), r) /\ during c' m' /\ null m' W_res /\
    (forall v, v <> W_res -> at_word m' v = at_word m v) /\ c_state c' = c_state c.
  Proof.
    intros D E. unfold send_res_m. rewrite E. destruct (during_drop c m W_res D) as (m' & E' & D' & Z0 & O); try discriminate. rewrite E'. cbn [obind]. exists m'.
    assert (c_stage c' = c_stage c /\ c_sent c' = c_sent c /\ c_state c' = c_state c) as (S1 & S2 & S3).
    { unfold send_resbuf in E. destruct (negb (c_resbuf c)); [inversion E; subst; auto|]. destruct (an_res a <? 0)%Z; inversion E; subst; auto. }
    sp; auto. apply during_cmd with (c := c); auto.
  Qed.
  Lemma send_exp_during c m a c' r : during c m -> send_expbuf (l_reg lg) c a = (c', r) -> exists m', send_exp_m lg (c, m) a = Ok ((c', m'), r) /\ during c' m' /\ null m' W_exp /\
    (forall v, v <> W_exp -> at_word m' v = at_word m v) /\ c_state c' = c_state c /\ c_stage c' = c_stage c.
  Proof.
    intros D E. unfold send_exp_m. rewrite E. destruct (during_drop c m W_exp D) as (m' & E' & D' & Z0 & O); try discriminate. rewrite E'. cbn [obind]. exists m'.
    assert (c_stage c' = c_stage c /\ (c_sent c' = c_sent c \/ c_sent c' = c_sent c ++ [M_Sync]) /\ c_state c' = c_state c) as (S1 & S2 & S3).
    { unfold send_expbuf in E. destruct (c_expbuf c) as [n|]; [|inversion E; subst; auto].
      destruct (to_main (l_reg lg)); [destruct (n =? 0); [inversion E; subst; auto|]|]; (destruct (an_exp a <? 0)%Z; inversion E; subst; auto). }
    sp; auto. destruct S2; [now apply during_cmd with (c := c)|now apply during_sent with (c := c)].
  Qed.
  Lemma tail_after_res c m a r : during c m -> c_state c = C_RESBUF_L_SEND -> (l_scan lg = true -> null m W_exp) -> gives (handler_tail_m lg (c, m) a r) after.
  Proof.
    intros D S X. unfold handler_tail_m. cbn [fst]. rewrite S. destruct (send_resbuf c a) as [c' r'] eqn:E.
    destruct (send_res_during c m a c' r' D E) as (m' & E' & D' & Z0 & O & S'). rewrite E'. unfold andthen_m. cbn [obind]. destruct (r' <? 0)%Z eqn:R.
    - cbn [gives]. destruct D' as (W & P & Q & _). apply after_fail; auto; [rewrite S', S; discriminate|lia].
    - apply end_stage_after; auto; try (rewrite S', S; discriminate). intros Sc. split; [exact Z0|]. unfold null. rewrite O by discriminate. exact (X Sc).
  Qed.
  Lemma tail_after_exp c m a r : during c m -> c_state c = C_EXPBUF_L_SEND -> l_scan lg = false -> gives (handler_tail_m lg (c, m) a r) after.
  Proof.
    intros D S X. unfold handler_tail_m. cbn [fst]. rewrite S. destruct (send_expbuf (l_reg lg) c a) as [c' r'] eqn:E.
    destruct (send_exp_during c m a c' r' D E) as (m' & E' & D' & Z0 & O & S' & _). rewrite E'. cbn [obind]. destruct ((r' <? 0)%Z && negb (r' =? - ENODATA)%Z) eqn:R.
    - cbn [gives]. destruct D' as (W & P & Q & _). apply after_fail; auto; [rewrite S', S; discriminate|]. apply andb_true_iff in R. lia.
    - apply end_stage_after; auto; try (rewrite S', S; discriminate). congruence.
  Qed.
  Lemma build_after c m a e : during c m -> c_state c = C_RES_BUILD -> null m W_exp -> null m W_uns -> (l_udev lg && e_udev e = true -> is m W_res) ->
    gives (handler_build_m lg (c, m) a e 0) after.
  Proof.
    intros D S X U R. unfold handler_build_m. cbn [fst]. rewrite S. unfold build_m. destruct (build_buffers (l_reg lg) c a) as [c1 r1] eqn:B.
    assert (F : c_state c1 = c_state c /\ c_stage c1 = c_stage c /\ c_sent c1 = c_sent c /\ (exports (l_reg lg) = false -> r1 = 0%Z) /\ (exports (l_reg lg) = true -> (r1 <? 0)%Z = (an_build a <? 0)%Z)).
    { unfold build_buffers in B. destruct (exports (l_reg lg)); cbn in B; [|inversion B; subst; sp; auto; discriminate].
      destruct (an_build a <? 0)%Z eqn:Q; inversion B; subst; sp; auto; discriminate. }
    destruct F as (F1 & F2 & F3 & F4 & F5).
    assert (D1 : during c1 m) by (apply during_cmd with (c := c); auto). pose proof D1 as (W & P & Q & C & L).
    assert (M : forall m2, during c1 m2 -> (l_scan lg = true -> null m2 W_uns -> False) ->
      gives (andthen_m (change_m (l_reg lg) (c1, m2) (if to_main (l_reg lg) then C_EXPBUF_F_SEND else C_RESBUF_F_SEND) 0) (fun x => handler_send_m lg x a 0)) after).
    { intros m2 D2 U2. rewrite change_plain; [|rewrite F1, S; destruct (to_main (l_reg lg)); discriminate|destruct (to_main (l_reg lg)); cbn; intuition discriminate].
      unfold andthen_m. cbn [obind]. rewrite ltb0. destruct (to_main (l_reg lg)) eqn:T.
      - assert (Sc : l_scan lg = true). { destruct (l_scan lg) eqn:Sc; auto. destruct (other_reg Sc) as (_ & T2 & _). congruence. }
        set (c2 := set_state c1 C_EXPBUF_F_SEND (c_stage c1) (c_timer c1) (c_armed c1)). unfold handler_send_m. cbn [fst]. replace (c_state c2) with C_EXPBUF_F_SEND by reflexivity.
        assert (D3 : during c2 m2) by (apply during_cmd with (c := c1); auto).
        destruct (send_expbuf (l_reg lg) c2 a) as [c3 r3] eqn:E. destruct (send_exp_during c2 m2 a c3 r3 D3 E) as (m3 & E3 & D4 & Z0 & O & S3 & St3). rewrite E3. cbn [obind].
        assert (c_state c3 = C_EXPBUF_F_SEND) as S3' by (rewrite S3; reflexivity).
        destruct ((r3 <? 0)%Z && negb (r3 =? - ENODATA)%Z) eqn:R3.
        + cbn [gives]. destruct D4 as (W4 & P4 & Q4 & _). apply after_fail; auto; [rewrite S3'; discriminate|]. apply andb_true_iff in R3. lia.
        + rewrite change_plain; [|rewrite S3'; destruct (r3 =? - ENODATA)%Z; discriminate|destruct (r3 =? - ENODATA)%Z; cbn; intuition discriminate]. cbn [obind].
          rewrite ltb0. destruct (r3 =? - ENODATA)%Z.
          * apply tail_after_res; [apply during_cmd with (c := c3); auto|reflexivity|]. intros _. exact Z0.
          * unfold handler_tail_m. cbn [fst c_state set_state gives]. destruct D4 as (W4 & P4 & Q4 & C4 & L4). unfold after. rewrite ltb0. sp; auto; [cbn; discriminate|].
            right. right. left. cbn [c_state set_state c_stage]. sp; auto.
            -- intros N. apply U2; [exact Sc|]. unfold null. rewrite <- (O W_uns) by discriminate. exact N.
      - assert (Sc : l_scan lg = false). { destruct (l_scan lg) eqn:Sc; auto. destruct (scan_reg Sc) as (T2 & _). rewrite T2 in T. discriminate. }
        set (c2 := set_state c1 C_RESBUF_F_SEND (c_stage c1) (c_timer c1) (c_armed c1)). unfold handler_send_m. cbn [fst]. replace (c_state c2) with C_RESBUF_F_SEND by reflexivity.
        assert (D3 : during c2 m2) by (apply during_cmd with (c := c1); auto).
        destruct (send_resbuf c2 a) as [c3 r3] eqn:E. destruct (send_res_during c2 m2 a c3 r3 D3 E) as (m3 & E3 & D4 & Z0 & O & S3). rewrite E3. unfold andthen_m. cbn [obind].
        assert (c_state c3 = C_RESBUF_F_SEND) as S3' by (rewrite S3; reflexivity).
        destruct (r3 <? 0)%Z eqn:R3.
        + cbn [gives]. destruct D4 as (W4 & P4 & Q4 & _). apply after_fail; auto; [rewrite S3'; discriminate|]. lia.
        + rewrite change_plain; [|rewrite S3'; discriminate|cbn; intuition discriminate]. cbn [obind]. rewrite ltb0.
          apply tail_after_exp; [apply during_cmd with (c := c3); auto|reflexivity|exact Sc]. }
    destruct (exports (l_reg lg)) eqn:Ex; cbn [negb].
    - assert (A : (if l_udev lg && e_udev e then access m W_res else Ok m) = Ok m).
      { destruct (l_udev lg && e_udev e); [|reflexivity]. apply access_wf; auto. }
      rewrite A. cbn [obind]. destruct (r1 <? 0)%Z eqn:R1.
      + unfold andthen_m. cbn [obind]. rewrite R1. cbn [gives]. apply after_fail; auto; [rewrite F1, S; discriminate|lia].
      + unfold andthen_m at 1. cbn [obind]. rewrite R1. apply M.
        * apply during_lost with (m := m); auto.
          -- apply take_wf; [apply take_wf; auto; side| |side|side|side]. left. unfold null. now rewrite take_other by discriminate.
          -- intros p _ I. cbn. auto.
        * intros _ N. now apply (take_at (take m W_exp) W_uns).
    - rewrite F4 by reflexivity. unfold andthen_m at 1. cbn [obind]. rewrite ltb0. apply M; auto.
      intros Sc. destruct (scan_reg Sc) as (T2 & _). rewrite T2 in Ex. discriminate.
  Qed.

  Lemma lost_keep m m' : at_word m' W_cmd = at_word m W_cmd -> (forall p, fst p = W_cmd -> In p (live m) -> In p (live m')) -> lost_map m -> lost_map m'.
  Proof. intros E K (p & I & F & N). exists p. rewrite E. auto. Qed.
  Lemma run_build c m a e : during c m -> c_state c = C_EXE_RUN -> null m W_exp -> null m W_uns -> (l_udev lg && e_udev e = true -> is m W_res) ->
    gives (andthen_m (change_m (l_reg lg) (c, m) C_RES_BUILD 0) (fun x => handler_build_m lg x a e 0)) after.
  Proof.
    intros D S X U R. rewrite change_plain; [|rewrite S; discriminate|cbn; intuition discriminate]. unfold andthen_m. cbn [obind]. rewrite ltb0.
    apply build_after; auto.
  Qed.
  Definition runs (x : cm) (a : answers) (e : effects) : outcome (cm * Z) :=
    let! (x, r) := exec_m lg x a e in
    if (r <? 0)%Z then Ok (x, r)
    else if state_eqb (c_state (fst x)) C_EXE_RUN then andthen_m (change_m (l_reg lg) x C_RES_BUILD 0) (fun x => handler_build_m lg x a e 0)
    else handler_build_m lg x a e r.
  Lemma exec_plain c a c' r : asks_main (l_reg lg) = false -> exec (l_reg lg) c a = Ok (c', r) ->
    r = an_exec a /\ c_state c' = c_state c /\ c_stage c' = c_stage c /\ c_sent c' = c_sent c /\ c_mem c' = c_mem c.
  Proof. intros A. unfold exec. rewrite A. cbn [andb]. intros H. inversion H; subst. cbn. auto. Qed.
  Lemma plain_exec c a : asks_main (l_reg lg) = false -> exec (l_reg lg) c a = Ok (emit c (Ran (c_stage c)), an_exec a).
  Proof. intros A. unfold exec. now rewrite A. Qed.
  Lemma runs_after c m a e : wf m -> is m W_prn -> quiet c -> c_state c = C_EXE_RUN -> null m W_exp -> null m W_uns ->
    (asks_main (l_reg lg) = true -> is m W_res /\ (c_mem c = true -> is m W_cmd)) ->
    (l_scan lg = true -> (c_stage c = 1 /\ null m W_cmd /\ null m W_env /\ is m W_res) \/ (c_stage c = 2 /\ is m W_cmd /\ e_udev e = false)) ->
    (l_scan lg = false -> is m W_res) ->
    gives (runs (c, m) a e) after.
  Proof.
    intros W P Q S X U As Sc Ot. unfold runs, exec_m. destruct (asks_main (l_reg lg)) eqn:A.
    - destruct (asks_other A) as [Ns Rg]. destruct (As eq_refl) as [R Cm]. unfold exec. rewrite A. cbn [andb]. replace (c_mem (emit c (Ran (c_stage c)))) with (c_mem c) by reflexivity.
      destruct (c_mem c) eqn:Mm; cbn [negb].
      + cbn [obind]. specialize (Cm eq_refl). rewrite access_wf; auto. cbn [obind]. rewrite access_wf; auto. cbn [obind]. rewrite access_wf; auto. cbn [obind].
        pose proof (clear_wf m W A) as W2.
        destruct (an_exec a <? 0)%Z eqn:Ea.
        * cbn [gives]. apply after_fail; auto; [cbn; rewrite S; discriminate|lia].
        * cbn [fst]. replace (c_state (emit c (Ran (c_stage c)))) with C_EXE_RUN by (cbn; now rewrite S). cbn [state_eqb]. apply run_build; auto.
          -- unfold during. sp; auto; [congruence|]. intros _. destruct (at_word m W_cmd) as [p|] eqn:E; [|now destruct Cm]. destruct W as (Pt & _). destruct (Pt W_cmd p E) as [F I].
             exists p. split; [exact I|split; [exact F|cbn; discriminate]].
      + destruct (an_exec a <? 0)%Z eqn:Ea.
        * cbn [obind]. replace (-1 <? 0)%Z with true by reflexivity. cbn [gives]. apply after_fail; auto; [cbn; rewrite S; discriminate|lia].
        * set (c1 := send (emit c (Ran (c_stage c))) M_Resources). assert (S1 : c_state c1 = C_EXE_RUN) by (cbn; exact S).
          assert (CH : change_state (l_reg lg) c1 C_EXE_WAIT 0 = Ok (set_state c1 C_EXE_WAIT (c_stage c1) (c_timer c1) (c_armed c1), 0%Z)).
          { unfold change_state. rewrite S1. reflexivity. }
          rewrite CH. cbn [obind]. rewrite ltb0. cbn [fst c_state set_state state_eqb]. unfold handler_build_m. cbn [fst c_state set_state]. unfold handler_send_m. cbn [fst c_state set_state].
          unfold handler_tail_m. cbn [fst c_state set_state gives]. unfold after. rewrite ltb0. sp; auto; [intros Q2; congruence|discriminate|]. right. right. right. sp; auto.
          cbn. rewrite Mm. discriminate.
    - destruct (l_scan lg) eqn:Es.
      + destruct (scan_reg Es) as [Rg Nf]. destruct (Sc eq_refl) as [(St & N1 & N2 & R) | (St & Ic & Nu)]; rewrite St; cbn [exec_scan].
        * unfold scan_init. assert (Fail : forall m', wf m' -> is m' W_prn -> gives (let! (x, r) := (let! (m, r) := Ok (m', (-1)%Z) in let! (c, r0) := exec (l_reg lg) c (with_exec a r) in Ok (c, m, r0)) in
             (if (r <? 0)%Z then Ok (x, r) else if state_eqb (c_state (fst x)) C_EXE_RUN then andthen_m (change_m (l_reg lg) x C_RES_BUILD 0) (fun x0 => handler_build_m lg x0 a e 0)
              else handler_build_m lg x a e r)) after).
          { intros m' W' P'. cbn [obind]. rewrite plain_exec by auto. cbn [obind with_exec an_exec]. replace (-1 <? 0)%Z with true by reflexivity. cbn [gives].
            apply after_fail; auto; [cbn; rewrite S; discriminate|lia]. }
          destruct (e_iter e); cbn [negb]; [|apply Fail; auto].
          assert (W1 : wf (take m W_cmd)) by (apply take_wf; auto; side).
          destruct (e_uid e); cbn [negb].
          2:{ destruct (drop_clear_wf (take m W_cmd) W_cmd W1) as (m' & E' & W' & _ & O & _); [discriminate|]. rewrite E'. apply Fail; auto. unfold is. rewrite O by discriminate. exact P. }
          assert (W2 : wf (take (take m W_cmd) W_env)) by (apply take_wf; auto; side).
          destruct (e_init e); cbn [negb].
          2:{ destruct (drop_clear_wf _ W_cmd W2) as (m' & E' & W' & _ & O & _); [discriminate|]. rewrite E'. apply Fail; auto. unfold is. rewrite O by discriminate. exact P. }
          set (m2 := take (take m W_cmd) W_env) in *. cbn [obind]. rewrite plain_exec by auto. cbn [obind with_exec an_exec]. destruct (an_exec a <? 0)%Z eqn:Ea.
          -- cbn [gives]. apply after_fail; auto; [cbn; rewrite S; discriminate|lia].
          -- cbn [fst]. replace (c_state (emit c (Ran (c_stage c)))) with C_EXE_RUN by (cbn; now rewrite S). cbn [state_eqb]. apply run_build; auto.
             ++ unfold during. sp; auto; try congruence. intros _. left. split; [cbn; exact St|]. unfold is, m2. rewrite take_other by discriminate. apply take_at.
        * rewrite access_wf; auto. cbn [obind]. destruct (e_b_init e); cbn [negb].
          2:{ cbn [obind]. rewrite plain_exec by auto. cbn [obind with_exec an_exec]. replace (-1 <? 0)%Z with true by reflexivity. cbn [gives].
              apply after_fail; auto; [cbn; rewrite S; discriminate|lia]. }
          destruct (drop_clear_wf m W_cmd W) as (m' & E' & W' & Z0 & O & _); [discriminate|]. rewrite E'. cbn [obind]. rewrite plain_exec by auto. cbn [obind with_exec an_exec].
          assert (P' : is m' W_prn) by (unfold is; rewrite O by discriminate; exact P).
          destruct (an_exec a <? 0)%Z eqn:Ea.
          -- cbn [gives]. apply after_fail; auto; [cbn; rewrite S; discriminate|lia].
          -- cbn [fst]. replace (c_state (emit c (Ran (c_stage c)))) with C_EXE_RUN by (cbn; now rewrite S). cbn [state_eqb]. apply run_build; auto.
             ++ unfold during. sp; auto; try congruence.
             ++ unfold null. rewrite O by discriminate. exact X.
             ++ unfold null. rewrite O by discriminate. exact U.
             ++ rewrite Nu, andb_false_r. discriminate.
      + assert (AA : (if l_print lg then let! m0 := access m W_prn in access m0 W_res else Ok m) = Ok m).
        { destruct (l_print lg); [|reflexivity]. rewrite access_wf; auto. cbn [obind]. apply access_wf; auto. }
        rewrite AA. cbn [obind]. rewrite plain_exec by auto. cbn [obind]. destruct (an_exec a <? 0)%Z eqn:Ea.
        * cbn [gives]. apply after_fail; auto; [cbn; rewrite S; discriminate|lia].
        * cbn [fst]. replace (c_state (emit c (Ran (c_stage c)))) with C_EXE_RUN by (cbn; now rewrite S). cbn [state_eqb]. apply run_build; auto.
          unfold during. sp; auto; congruence.
  Qed.
  Lemma after_placed x a e : gives (handler_body_m lg (disarm (fst x), snd x) a e) after -> exists c m, handler_m lg x a e = Ok (c, m) /\ placed c m.
  Proof.
    intros G. unfold handler_m. destruct (handler_body_m lg (disarm (fst x), snd x) a e) as [[[c m] r]|]; [|contradiction]. cbn [gives] in G. destruct G as (W & P & Q & NI & G).
    cbn [obind]. destruct (drop_clear_wf m W_uns W) as (m' & E' & W' & Z0 & O & L); [discriminate|].
    assert (P' : is m' W_prn) by (unfold is; rewrite O by discriminate; exact P).
    destruct (r <? 0)%Z eqn:R.
    - assert (exists c1 r1, change_m (l_reg lg) (c, m) C_ERR 0 = Ok ((c1, m), r1) /\ c_state c1 = C_ERR /\ c_sent c1 = c_sent c) as (c1 & r1 & E1 & S1 & T1).
      { unfold change_m, change_state. cbn [fst snd]. destruct (state_eqb (c_state c) C_ERR) eqn:Er.
        - exists c, (-1)%Z. repeat split. destruct (c_state c); try discriminate; reflexivity.
        - eexists _, _. repeat split. }
      rewrite E1. cbn [obind fst]. rewrite S1. cbn [in_set existsb state_eqb orb]. unfold unsbuf_m. rewrite E'. cbn [obind fst snd]. eexists _, _. split; [reflexivity|].
      unfold placed, quiet. cbn [end_loop c_sent]. rewrite T1. sp; auto. do 4 right. unfold at_end. cbn [end_loop c_state c_prev]. rewrite S1. sp; auto; [left; cbn; auto|discriminate|discriminate].
    - cbn [obind fst snd]. destruct G as [(S & G1 & G2) | [(S & St & Sc & G1 & G2 & G3) | [(S & Sc & G1 & G2 & G3) | (S & As & G1 & G2 & G3 & G4)]]]; rewrite S; cbn [in_set existsb state_eqb orb].
      + unfold unsbuf_m. rewrite E'. cbn [obind]. eexists _, _. split; [reflexivity|]. unfold placed. sp; auto. do 4 right. unfold at_end. rewrite S. sp; auto; [left; cbn; auto| |discriminate].
        intros _. split.
        * intros Sc. unfold null. rewrite O by discriminate. now apply G1.
        * intros As. apply lost_keep with (m := m); [now apply O| |now apply G2]. intros p F I. apply L. split; [exact I|]. intros Q2. destruct W as (Pt & _). destruct (Pt W_uns p Q2). congruence.
      + unfold unsbuf_m. rewrite E'. cbn [obind]. eexists _, _. split; [reflexivity|]. unfold placed. sp; auto. do 2 right. left. unfold at_stage, null, is. rewrite (O W_res), (O W_exp), (O W_cmd) by discriminate. sp; auto.
      + eexists _, _. split; [reflexivity|]. unfold placed. sp; auto. do 3 right. left. unfold at_ack. sp; auto.
      + eexists _, _. split; [reflexivity|]. unfold placed. sp; auto. right. left. unfold at_wait. sp; auto.
  Qed.
  Lemma handler_placed c m a e : placed c m -> (l_scan lg = true -> e_udev e = true -> c_stage c <= 1) -> exists c' m', handler_m lg (c, m) a e = Ok (c', m') /\ placed c' m'.
  Proof.
    intros (W & P & Q & Pl) Ud. apply after_placed. cbn [fst snd].
    assert (Q' : quiet (disarm c)) by exact Q.
    set (d := disarm c). assert (Sd : c_state d = c_state c) by reflexivity. assert (Pd : c_prev d = c_prev c) by reflexivity. assert (Td : c_stage d = c_stage c) by reflexivity.
    assert (Md : c_mem d = c_mem c) by reflexivity.
    assert (Fail : forall r, (r < 0)%Z -> c_state c <> C_INI -> gives (Ok ((d, m), r)) after) by (intros r R N; cbn [gives]; apply after_fail; auto; rewrite Sd; exact N).
    assert (Run : c_state c = C_EXE_SCHED -> in_set (c_prev c) [C_INI; C_EXE_WAIT; C_STG_WAIT] = true ->
      null m W_exp -> null m W_uns -> (asks_main (l_reg lg) = true -> is m W_res /\ (c_mem c = true -> is m W_cmd)) ->
      (l_scan lg = true -> (c_stage c = 1 /\ null m W_cmd /\ null m W_env /\ is m W_res) \/ (c_stage c = 2 /\ is m W_cmd /\ e_udev e = false)) ->
      (l_scan lg = false -> is m W_res) -> gives (handler_body_m lg (d, m) a e) after).
    { intros S I X U As Sc Ot. unfold handler_body_m. cbn [fst]. rewrite Sd, Pd, S. cbn [state_eqb negb]. rewrite I. rewrite change_plain; [|rewrite Sd, S; discriminate|cbn; intuition discriminate].
      unfold andthen_m at 1. cbn [obind]. rewrite ltb0. apply runs_after; auto. }
    destruct Pl as [F | [F | [F | [F | F]]]].
    - destruct F as (S & Pr & St & R & X & U & F1 & F2 & F3). apply Run; auto.
      + now rewrite Pr.
      + intros Sc. left. destruct (scan_reg Sc) as [Rg Nf]. sp; auto. apply F1. now rewrite Rg.
    - destruct F as ([S | [S Pr]] & As & R & X & U & F3).
      + unfold handler_body_m. cbn [fst]. rewrite Sd, S. cbn [state_eqb negb]. apply Fail; [lia|congruence].
      + destruct (asks_other As) as [Ns _]. apply Run; auto; [now rewrite Pr|congruence].
    - destruct F as ([[S St] | (S & Pr & St)] & Sc & R & X & U & F3).
      + unfold handler_body_m. cbn [fst]. rewrite Sd, S. cbn [state_eqb negb]. apply Fail; [lia|congruence].
      + destruct (scan_reg Sc) as [Rg _]. apply Run; auto; [now rewrite Pr|rewrite Rg; discriminate| |congruence].
        intros _. right. sp; auto. destruct (e_udev e) eqn:Ue; auto. specialize (Ud Sc eq_refl). lia.
    - destruct F as ([S | [S Pr]] & Sc & X & U & F3).
      + unfold handler_body_m. cbn [fst]. rewrite Sd, S. cbn [state_eqb negb]. apply Fail; [lia|congruence].
      + unfold handler_body_m. cbn [fst]. rewrite Sd, Pd, S, Pr. cbn [state_eqb negb in_set existsb orb]. rewrite change_plain; [|rewrite Sd, S; discriminate|cbn; intuition discriminate].
        unfold andthen_m at 1. cbn [obind]. rewrite ltb0. unfold handler_build_m. cbn [fst c_state set_state]. unfold handler_send_m. cbn [fst c_state set_state].
        apply tail_after_res; auto. destruct (scan_reg Sc) as [Rg _]. unfold during. sp; auto. rewrite Rg. discriminate.
    - destruct F as (F & U & F1 & F2). unfold handler_body_m. cbn [fst]. rewrite Sd, Pd. destruct F as [F | [S F]].
      + cbn [In] in F. destruct F as [F | [F | [F | []]]]; rewrite <- F; cbn [state_eqb negb]; (apply Fail; [lia|congruence]).
      + rewrite S. cbn [state_eqb negb].
        assert (gives (handler_build_m lg (d, m) a e (-1)) after).
        { unfold handler_build_m, handler_send_m, handler_tail_m. cbn [fst]. rewrite Sd, S. apply Fail; [lia|congruence]. }
        cbn [In] in F. destruct F as [F | [F | [F | []]]]; rewrite <- F; cbn [in_set existsb state_eqb orb]; assumption.
  Qed.

  Lemma placed_ext c c' m : placed c m -> c_state c' = c_state c -> c_prev c' = c_prev c -> c_stage c' = c_stage c -> c_mem c' = c_mem c ->
    (forall x, In x (c_sent c') -> In x (c_sent c)) -> placed c' m.
  Proof.
    intros (W & P & Q & H) E1 E2 E3 E4 E5. unfold placed, at_first, at_wait, at_stage, at_ack, at_end, quiet in *. rewrite E1, E2, E3, E4. sp; auto. intros A I. now apply (Q A), E5.
  Qed.
  Lemma lost_map_take m : wf m -> lost_map m -> lost_map (take m W_cmd).
  Proof. intros (_ & F & _) (p & I & E & N). exists p. cbn. split; [now right|]. split; [exact E|]. intros H. inversion H. subst. apply F in I. cbn in I. lia. Qed.
  Lemma placed_map c m : placed c m -> asks_main (l_reg lg) = true -> placed (with_mem c) (take m W_cmd).
  Proof.
    intros (W & P & Q & H) A. destruct (asks_other A) as [Ns _]. pose proof (lost_map_take m W) as Lo. unfold placed. sp.
    - apply take_wf; auto; side.
    - exact P.
    - exact Q.
    - assert (T : is (take m W_cmd) W_cmd) by apply take_at. unfold at_first, at_wait, at_stage, at_ack, at_end, is, null in *. rewrite ?take_other in * by discriminate.
      replace (c_state (with_mem c)) with (c_state c) by reflexivity. replace (c_prev (with_mem c)) with (c_prev c) by reflexivity. replace (c_stage (with_mem c)) with (c_stage c) by reflexivity.
      replace (c_mem (with_mem c)) with true by reflexivity.
      destruct H as [H | [H | [H | [H | H]]]].
      + left. destruct H as (H1 & H2 & H3 & H4 & H5 & H6 & H7 & H8 & H9). sp; auto. congruence.
      + right. left. destruct H as (H1 & H2 & H3 & H4 & H5 & H6). sp; auto.
      + exfalso. destruct H as (_ & H & _). congruence.
      + exfalso. destruct H as (_ & H & _). congruence.
      + do 4 right. destruct H as (H1 & H2 & H3 & H4). sp; auto. intros S. destruct (H3 S) as [_ H3']. split; [congruence|auto].
  Qed.
  Lemma placed_sched c m : placed c m -> exists c' r, change_state (l_reg lg) c C_EXE_SCHED 0 = Ok (c', r) /\ placed c' m.
  Proof.
    intros H. pose proof H as (W & P & Q & Pl). unfold change_state. destruct (state_eqb (c_state c) C_EXE_SCHED) eqn:E; [eauto|].
    assert (N : c_state c <> C_EXE_SCHED) by (intros S; rewrite S in E; discriminate).
    destruct Pl as [F | [F | [F | [F | F]]]].
    - exfalso. apply N, F.
    - destruct F as ([S | [S _]] & F); [|contradiction]. rewrite S. cbn [in_set existsb state_eqb orb]. eexists _, _. split; [reflexivity|]. unfold placed. sp; auto. right. left.
      unfold at_wait. cbn [c_state c_prev set_state c_mem]. rewrite S. auto.
    - destruct F as ([[S St] | [S _]] & Sc & F); [|contradiction]. destruct (scan_reg Sc) as [Rg _]. rewrite S, St, Rg. cbn. eexists _, _. split; [reflexivity|]. unfold placed. sp; auto.
      right. right. left. unfold at_stage. cbn [c_state c_prev set_state c_stage]. rewrite S. auto.
    - destruct F as ([S | [S _]] & Sc & F); [|contradiction]. rewrite S. cbn [in_set existsb state_eqb orb]. eexists _, _. split; [reflexivity|]. unfold placed. sp; auto. right. right. right. left.
      unfold at_ack. cbn [c_state c_prev set_state c_stage]. rewrite S. auto.
    - destruct F as ([S | [S _]] & U & F); [|contradiction]. assert (in_set (c_state c) [C_INI; C_STG_WAIT] = false) as -> by (cbn [In] in S; destruct S as [S | [S | [S | []]]]; rewrite <- S; reflexivity).
      eexists _, _. split; [reflexivity|]. unfold placed. sp; auto. do 4 right. unfold at_end. cbn [c_state c_prev set_state]. sp; auto; discriminate.
  Qed.
  Lemma placed_timer c m : placed c m -> exists c' r, change_state (l_reg lg) c C_TIM_OUT 0 = Ok (c', r) /\ placed c' m.
  Proof.
    intros H. pose proof H as (W & P & Q & Pl). unfold change_state. destruct (state_eqb (c_state c) C_TIM_OUT) eqn:E; [eauto|].
    destruct (state_eqb (c_state c) C_STG_WAIT) eqn:E2; cbn [negb]; [|eauto].
    assert (S : c_state c = C_STG_WAIT) by (destruct (c_state c); try discriminate; reflexivity).
    destruct Pl as [F | [F | [F | [F | F]]]].
    - exfalso. destruct F as (F & _). congruence.
    - exfalso. destruct F as ([F | [F _]] & _); congruence.
    - destruct F as (_ & Sc & R & X & U & I). eexists _, _. split; [reflexivity|]. unfold placed. sp; auto. do 4 right. unfold at_end. cbn [c_state c_prev set_state]. sp; auto; [left; cbn; auto|discriminate].
    - exfalso. destruct F as ([F | [F _]] & _); congruence.
    - exfalso. destruct F as ([F | [F _]] & _); [|congruence]. rewrite S in F. cbn [In] in F. intuition discriminate.
  Qed.

  Definition good (s : lsys) : Prop := placed (s_cmd (fst s)) (snd s) /\ (asks_main (l_reg lg) = false -> ~ In W_Resources (s_in (fst s))).
  Lemma step_good s x : good s -> (forall a e, l_scan lg = true -> x = L_handler a e -> e_udev e = true -> c_stage (s_cmd (fst s)) <= 1) -> exists s', lstep lg s x = Ok s' /\ good s'.
  Proof.
    destruct s as [y m]. intros [Pl Ms] Ud. cbn [fst snd] in *. unfold lstep. destruct x as [a e|x].
    - destruct (c_armed (s_cmd y) && negb (c_ended (s_cmd y))); [|eexists; split; [reflexivity|split; auto]].
      destruct (handler_placed (s_cmd y) m a e Pl) as (c' & m' & E & H); [intros Sc U; now apply (Ud a e)|]. rewrite E. cbn [obind]. eexists. split; [reflexivity|]. split; auto.
    - destruct x; [eexists; split; [reflexivity|split; auto]| | | |].
      + unfold sys_step. destruct (c_sent (s_cmd y)) as [|[] l] eqn:Es; cbn [obind maps]; (eexists; split; [reflexivity|]); split; cbn [fst snd s_cmd s_in]; auto.
        * apply placed_ext with (c := s_cmd y); auto. intros x I. rewrite Es. now right.
        * intros A I. apply in_app_or in I. destruct I as [I | [I | []]]; [now apply (Ms A)|discriminate].
        * apply placed_ext with (c := s_cmd y); auto. intros x I. rewrite Es. now right.
        * intros A I. destruct Pl as (_ & _ & Q & _). apply (Q A). rewrite Es. now left.
      + unfold sys_step. cbn [obind maps]. eexists. split; [reflexivity|]. split; cbn [fst snd s_cmd s_in]; auto. intros A I. apply in_app_or in I. destruct I as [I | [I | []]]; [now apply (Ms A)|discriminate].
      + unfold sys_step, maps. destruct (s_in y) as [|w l] eqn:Ey; [cbn [obind]; eexists; split; [reflexivity|]; split; cbn [fst snd]; auto; rewrite Ey; auto|].
        destruct (c_ended (s_cmd y)) eqn:En; cbn [negb].
        { cbn [obind]. eexists. split; [reflexivity|]. cbn [fst snd]. split; cbn [fst snd]; [destruct w; exact Pl|rewrite Ey; exact Ms]. }
        assert (Ms' : asks_main (l_reg lg) = false -> ~ In W_Resources l) by (intros A I; apply (Ms A); now right).
        set (c1 := match w with W_Resources => with_mem (s_cmd y) | _ => s_cmd y end). set (m1 := if match w with W_Resources => true | _ => false end then take m W_cmd else m).
        assert (P1 : placed c1 m1).
        { destruct w; try exact Pl. apply placed_map; auto. destruct (asks_main (l_reg lg)) eqn:A; auto. exfalso. apply (Ms eq_refl). now left. }
        destruct (match w with W_Umonitor => negb (to_main (l_reg lg)) | _ => false end).
        { cbn [obind]. eexists. split; [reflexivity|]. split; cbn [fst snd s_cmd s_in]; auto. }
        destruct (placed_sched c1 m1 P1) as (c2 & r & E & P2). fold c1. rewrite E. cbn [obind]. eexists. split; [reflexivity|]. split; cbn [fst snd s_cmd s_in]; auto.
      + unfold sys_step. cbn [maps]. destruct (c_timer (s_cmd y) && negb (c_ended (s_cmd y))).
        * destruct (placed_timer (s_cmd y) m Pl) as (c2 & r & E & P2). rewrite E. cbn [obind]. eexists. split; [reflexivity|]. split; cbn [fst snd s_cmd s_in]; auto.
        * cbn [obind]. eexists. split; [reflexivity|]. split; auto.
  Qed.

  (* The end *)
  Definition freed : list word :=
    [W_res; W_prn; W_exp] ++ (if asks_main (l_reg lg) then [W_cmd] else []) ++ (if l_file lg then [W_env] else [W_num; W_env; W_dsq]) ++ [W_ctx].
  Lemma destroy_drops m : destroy_command lg m = drops m freed.
  Proof.
    unfold destroy_command, drops, freed. destruct (asks_main (l_reg lg)), (l_file lg); cbn [app fold_left obind]; repeat (match goal with |- context [drop ?x ?w] => destruct (drop x w); cbn [obind]; try reflexivity end).
  Qed.
  Lemma freed_nodup : NoDup freed.
  Proof. unfold freed. destruct (asks_main (l_reg lg)), (l_file lg); cbn [app]; repeat constructor; cbn; intuition discriminate. Qed.
  Lemma destroy_ok m : wf m -> exists m', destroy_command lg m = Ok m' /\ (forall p, In p (live m') <-> In p (live m) /\ (forall w, In w freed -> at_word m w <> Some p)).
  Proof. intros (P & _). rewrite destroy_drops. destruct (drops_ok freed freed_nodup m) as (m' & E & _ & L); [auto|]. eauto. Qed.
  Lemma left_piece m m' p : wf m -> destroy_command lg m = Ok m' -> In p (live m') ->
    lost_ok p \/ (at_word m (fst p) = Some p /\ (fst p = W_uns \/ (fst p = W_cmd /\ asks_main (l_reg lg) = false))).
  Proof.
    intros W E I. destruct (destroy_ok m W) as (m2 & E2 & L). rewrite E2 in E. injection E as <-. apply L in I. destruct I as [I N]. destruct W as (P & _ & Lo & Ky & Kf & Kc).
    destruct (Lo p I) as [A | A]; [|now left]. right. split; [exact A|]. specialize (N (fst p)). unfold freed in N.
    destruct (fst p) eqn:F; auto; try (exfalso; apply N; [rewrite !in_app_iff; cbn; tauto|exact A]).
    - destruct (l_file lg); [|]; exfalso; (apply N; [rewrite !in_app_iff; cbn; tauto|exact A]).
    - destruct (l_file lg) eqn:Fl; [destruct (Kf eq_refl); congruence|]. exfalso. apply N; [rewrite !in_app_iff; cbn; tauto|exact A].
    - destruct (l_file lg) eqn:Fl; [destruct (Kf eq_refl); congruence|]. exfalso. apply N; [rewrite !in_app_iff; cbn; tauto|exact A].
    - destruct (asks_main (l_reg lg)); auto. exfalso. apply N; [rewrite !in_app_iff; cbn; tauto|exact A].
    - congruence.
  Qed.
  Lemma left_held m m' p w : wf m -> destroy_command lg m = Ok m' -> at_word m w = Some p -> ~ In w freed -> In p (live m') /\ fst p = w.
  Proof.
    intros W E A N. destruct (destroy_ok m W) as (m2 & E2 & L). rewrite E2 in E. injection E as <-. destruct W as (P & _). destruct (P w p A) as [F I]. split; [|exact F]. apply L. split; [exact I|].
    intros v V Q. destruct (P v p Q). congruence.
  Qed.
  Lemma left_lost m m' p : wf m -> destroy_command lg m = Ok m' -> In p (live m) -> at_word m (fst p) <> Some p -> In p (live m').
  Proof.
    intros W E A N. destruct (destroy_ok m W) as (m2 & E2 & L). rewrite E2 in E. injection E as <-. apply L. split; [exact A|]. intros v V Q. destruct W as (P & _). destruct (P v p Q). congruence.
  Qed.
End Command.

(* The start: nothing is lost but keys *)
Definition bare : lreg := lreg_plain.
Section Init.
  Variable lg : lreg.
  Variable key_lost : Prop.
  Hypothesis In_lg : In lg commands.
  Definition start (m : mem) : Prop := wf bare key_lost m /\ null m W_cmd /\ null m W_exp /\ null m W_uns /\ (l_import lg = false -> null m W_num /\ null m W_dsq).
  Lemma file_import : l_file lg = true -> l_import lg = false.
  Proof. unfold commands in In_lg. cbn [In] in In_lg. intuition subst; try discriminate; auto. Qed.
  Lemma start_none : start none.
  Proof. split; [apply wf_none|]. repeat split; reflexivity. Qed.
  Lemma start_take m w : start m -> null m w -> ~ In w [W_cmd; W_exp; W_uns; W_key] -> (l_import lg = false -> w <> W_num /\ w <> W_dsq) -> start (take m w).
  Proof.
    intros (W & N1 & N2 & N3 & N4) N I F. unfold start, null in *. cbn [In] in I. split; [apply take_wf; [exact W|now left|intros ->; apply I; auto|intros H; discriminate H|intros _ _ ->; apply I; auto]|].
    rewrite !take_other by (intros <-; apply I; auto). sp; auto. intros Im. destruct (F Im), (N4 Im). rewrite !take_other by congruence. auto.
  Qed.
  Lemma start_wf m : start m -> wf lg key_lost m.
  Proof.
    intros ((P & F & L & Ky & _) & N1 & N2 & N3 & N4). unfold wf. sp; auto.
    - intros p I. destruct (L p I) as [A | [A | [A _]]]; [now left|right; now left|discriminate].
    - intros Fl. now apply N4, file_import.
  Qed.
  Lemma init_fail_ok known m : start m -> (known && l_file lg = true -> null m W_env) ->
    exists m', init_fail lg known m = Ok m' /\ (forall p, In p (live m') -> fst p = W_key /\ key_lost).
  Proof.
    intros (W & N1 & N2 & N3 & N4) E. unfold init_fail.
    assert (A : (if known && l_file lg then drop m W_env else Ok m) = Ok m).
    { destruct (known && l_file lg); [|reflexivity]. unfold drop. now rewrite (E eq_refl). }
    rewrite A. cbn [obind]. destruct W as (P & F & L & Ky & _).
    destruct (drops_ok [W_prn; W_res; W_num; W_env; W_dsq; W_ctx]) with (m := m) as (m' & D & _ & Lv); [repeat constructor; cbn; intuition discriminate|auto|].
    exists m'. split.
    - unfold drops in D. cbn [fold_left obind] in D. rewrite <- D. clear. repeat (match goal with |- context [drop ?x ?w] => destruct (drop x w); cbn [obind]; try reflexivity end).
    - intros p I. apply Lv in I. destruct I as [I N]. destruct (L p I) as [Q | [Q | [Q _]]]; [|exact Q|discriminate]. exfalso. unfold null in *.
      destruct (fst p) eqn:Fp; try congruence; (apply (N (fst p)); [rewrite Fp; cbn; tauto|rewrite Fp; exact Q]).
  Qed.
  (* The fields *)
  Definition same (m m' : mem) : Prop :=
    (forall w, at_word m' w = at_word m w) /\ (forall p, In p (live m) -> In p (live m')) /\ (forall p, In p (live m') -> In p (live m) \/ (fst p = W_key /\ key_lost)) /\
    made m <= made m' /\ (forall p, In p (live m') -> snd p < made m').
  Lemma same_start m m' : start m -> same m m' -> start m'.
  Proof.
    intros ((P & F & L & Ky & Kf & Kc) & N) (A & L1 & L2 & M & B). unfold start, null. rewrite !A. split; [|exact N]. unfold wf. rewrite !A. sp; auto.
    - intros w p. rewrite A. intros Q. destruct (P w p Q). split; auto.
    - intros p I. rewrite A. destruct (L2 p I) as [I' | I']; [now apply L|]. right. now left.
  Qed.
  Lemma add_field_ok m f : start m -> (f = F_not_set -> key_lost) -> exists m' b, add_field m f = Ok (m', b) /\ same m m'.
  Proof.
    intros S K. pose proof S as ((P & F & L & Ky & Kf) & _). destruct f; cbn [add_field].
    - unfold drop_clear. assert (Pt : points (take m W_key) W_key) by (intros p Q; cbn in Q; inversion Q; subst; cbn; auto).
      destruct (drop_ok (take m W_key) W_key Pt) as (m1 & E & A & M & Lv). rewrite E. cbn [obind]. eexists _, _. split; [reflexivity|]. unfold same. cbn [at_word live made set_word]. rewrite A, M. sp.
      + intros w. cbn. destruct (word_eqb w W_key) eqn:Ew; [apply word_eqb_eq in Ew; now subst|reflexivity].
      + intros p I. apply Lv. split; [now right|]. cbn. intros H. inversion H. subst. apply F in I. cbn in I. lia.
      + intros p I. apply Lv in I. destruct I as [[<- | I] N]; [exfalso; apply N; reflexivity|now left].
      + cbn. lia.
      + intros p I. apply Lv in I. destruct I as [[<- | I] N]; cbn; [lia|]. apply F in I. lia.
    - eexists _, _. split; [reflexivity|]. unfold same. sp; auto.
    - eexists _, _. split; [reflexivity|]. unfold same. cbn [at_word live made set_word take]. sp.
      + intros w. destruct (word_eqb w W_key) eqn:Ew; [apply word_eqb_eq in Ew; now subst|reflexivity].
      + intros p I. now right.
      + intros p [<- | I]; [right; cbn; auto|now left].
      + lia.
      + intros p [<- | I]; cbn; [lia|]. apply F in I. lia.
  Qed.
  Lemma same_trans a b c : same a b -> same b c -> same a c.
  Proof.
    intros (A1 & A2 & A3 & A4 & A5) (B1 & B2 & B3 & B4 & B5). unfold same. sp; auto; [congruence| |lia]. intros p I. destruct (B3 p I) as [I' | I']; [now apply A3|now right].
  Qed.
  Lemma same_refl m : start m -> same m m.
  Proof. intros ((P & F & _) & _). unfold same. sp; auto. Qed.
  Lemma add_fields_ok l : forall m, start m -> (In F_not_set l -> key_lost) -> exists m' b, add_fields m l = Ok (m', b) /\ same m m'.
  Proof.
    induction l as [|f l IH]; intros m S K; cbn [add_fields]; [eexists _, _; split; [reflexivity|now apply same_refl]|].
    destruct (add_field_ok m f S) as (m1 & b & E & Sm); [intros ->; apply K; now left|]. rewrite E. cbn [obind]. destruct b; [eexists _, _; split; [reflexivity|exact Sm]|].
    destruct (IH m1) as (m2 & b2 & E2 & S2); [now apply same_start with (m := m)|intros I; apply K; now right|]. rewrite E2. eexists _, _. split; [reflexivity|]. now apply same_trans with (b := m1).
  Qed.
  Lemma parse_env_ok m bad l : start m -> null m W_num -> null m W_dsq -> l_import lg = true -> (In F_not_set l -> key_lost) -> exists m' b, parse_env m bad l = Ok (m', b) /\ start m' /\
    at_word m' W_env = at_word m W_env /\ at_word m' W_res = at_word m W_res /\ at_word m' W_prn = at_word m W_prn.
  Proof.
    intros S N D Im K. unfold parse_env. destruct (bad I_size); [eexists _, _; split; [reflexivity|auto]|]. destruct (bad I_num); [eexists _, _; split; [reflexivity|auto]|].
    assert (S1 : start (take m W_num)) by (apply start_take; auto; [cbn; intuition discriminate|congruence]).
    destruct (add_fields_ok l (take m W_num) S1 K) as (m1 & b & E & Sm). rewrite E. cbn [obind]. assert (S2 : start m1) by now apply same_start with (m := take m W_num).
    destruct Sm as (A & _). destruct b; [eexists _, _; split; [reflexivity|]; rewrite !A; auto|]. destruct (bad I_dsq); [eexists _, _; split; [reflexivity|]; rewrite !A; auto|].
    eexists _, _. split; [reflexivity|]. rewrite !take_other by discriminate. rewrite !A. split; [|auto]. apply start_take; auto; [unfold null; rewrite A; exact D|cbn; intuition discriminate|congruence].
  Qed.
  Lemma init_ok bad fields path : (In F_not_set fields -> key_lost) -> ~ (l_file lg = true /\ path = true /\ late_failure bad) ->
    exists m made, init_command lg bad fields path = Ok (m, made) /\
      match made with None => forall p, In p (live m) -> fst p = W_key /\ key_lost | Some c => good lg key_lost (Sys c [], m) end.
  Proof.
    intros K NL. unfold init_command. destruct (bad I_ctx) eqn:B1; [eexists _, _; split; [reflexivity|cbn; contradiction]|].
    assert (FA : forall known m, start m -> (known && l_file lg = true -> null m W_env) -> exists m1 made, (let! m0 := init_fail lg known m in Ok (m0, @None cmd)) = Ok (m1, made) /\
      match made with None => forall p, In p (live m1) -> fst p = W_key /\ key_lost | Some c => good lg key_lost (Sys c [], m1) end).
    { intros known m S E. destruct (init_fail_ok known m S E) as (m' & E' & L). rewrite E'. cbn [obind]. eexists _, _. split; [reflexivity|exact L]. }
    set (m1 := take none W_ctx). assert (S1 : start m1) by (apply start_take; [apply start_none|reflexivity|cbn; intuition discriminate|split; discriminate]).
    destruct (bad I_ini) eqn:B2; [cbn [orb]; apply FA; [assumption|intros _; reflexivity]|]. destruct (bad I_prot) eqn:B3; [cbn [orb]; apply FA; [assumption|intros _; reflexivity]|]. destruct (bad I_reg) eqn:B4; [cbn [orb]; apply FA; [assumption|intros _; reflexivity]|]. cbn [orb].
    destruct (bad I_prn) eqn:B5; [apply FA; [assumption|intros _; reflexivity]|]. set (m2 := take m1 W_prn). assert (S2 : start m2) by (apply start_take; auto; [reflexivity|cbn; intuition discriminate|split; discriminate]).
    destruct (bad I_res) eqn:B6; [apply FA; [assumption|intros _; reflexivity]|]. set (m3 := take m2 W_res). assert (S3 : start m3) by (apply start_take; auto; [reflexivity|cbn; intuition discriminate|split; discriminate]).
    destruct (bad I_add) eqn:B7; [cbn [orb]; apply FA; [assumption|intros _; reflexivity]|]. destruct (bad I_common) eqn:B8; [cbn [orb]; apply FA; [assumption|intros _; reflexivity]|]. cbn [orb].
    assert (PE : exists m4 b, (if l_import lg then parse_env m3 bad fields else Ok (m3, false)) = Ok (m4, b) /\ start m4 /\ at_word m4 W_env = None /\ is m4 W_res /\ is m4 W_prn).
    { destruct (l_import lg) eqn:Im.
      - destruct (parse_env_ok m3 bad fields S3) as (m4 & b & E & S4 & A1 & A2 & A3); auto; [reflexivity|reflexivity|]. exists m4, b. unfold is. rewrite A1, A2, A3. split; [exact E|]. split; [exact S4|].
        split; [reflexivity|]. split; [cbn; discriminate|cbn; discriminate].
      - exists m3, false. split; [reflexivity|]. split; [exact S3|]. split; [reflexivity|]. split; cbn; discriminate. }
    destruct PE as (m4 & b & E4 & S4 & A1 & A2 & A3). rewrite E4. cbn [obind]. destruct b; [apply FA; auto|].
    destruct (l_file lg && path && bad I_path) eqn:B9; [apply FA; auto|]. set (m5 := if l_file lg && path then take m4 W_env else m4).
    assert (S5 : start m5). { unfold m5. destruct (l_file lg && path); [|exact S4]. apply start_take; auto; [cbn; intuition discriminate|split; discriminate]. }
    assert (Late : l_file lg && path = true -> late_failure bad -> False). { intros H1 H2. apply andb_true_iff in H1. destruct H1. apply NL. auto. }
    assert (E5 : l_file lg && path = false -> at_word m5 W_env = None) by (intros H; unfold m5; now rewrite H).
    assert (BP : l_file lg && path = true -> forall x, In x before_path -> bad x = false).
    { intros H x Ix. rewrite H in B9. cbn [andb] in B9. unfold before_path in Ix. cbn [In] in Ix. intuition (subst x; assumption). }
    assert (FS : l_file lg = true -> l_session lg = false) by (clear - In_lg; unfold commands in In_lg; cbn [In] in In_lg; intuition subst; try discriminate; auto).
    destruct (l_session lg && bad I_session) eqn:B10.
    { apply FA; auto. intros Fl. cbn [andb] in Fl. exfalso. rewrite (FS Fl) in B10. discriminate. }
    destruct (bad I_handler || bad I_sched) eqn:B11.
    { apply FA; auto. intros Fl. cbn [andb] in Fl. apply E5. rewrite Fl. cbn [andb]. destruct path eqn:Pa; auto. exfalso. apply Late; [now rewrite Fl|].
      split; [apply BP; now rewrite Fl|now apply orb_true_iff]. }
    assert (IC : exists c, init_cmd (l_reg lg) = Ok c /\ c_state c = C_EXE_SCHED /\ c_prev c = C_INI /\ c_stage c = 1 /\ c_mem c = false /\ c_sent c = []).
    { clear - In_lg. unfold commands in In_lg. cbn [In] in In_lg. intuition subst; eexists; (split; [reflexivity|repeat split; reflexivity]). }
    destruct IC as (c & Ec & C1 & C2 & C3 & C4 & C5). rewrite Ec. cbn [obind]. eexists _, _. split; [reflexivity|]. split; cbn [fst snd s_cmd s_in]; [|auto].
    assert (R5 : is m5 W_res /\ is m5 W_prn). { unfold m5, is. destruct (l_file lg && path); rewrite ?take_other by discriminate; auto. }
    pose proof S5 as (_ & N1 & N2 & N3 & _). unfold placed. split; [now apply start_wf|]. split; [apply R5|]. split; [unfold quiet; rewrite C5; auto|]. left. unfold at_first. rewrite C1, C2, C3, C4.
    destruct R5 as [R5 _]. sp; auto; [|congruence]. intros Fl. apply E5. now rewrite Fl.
  Qed.
End Init.

Lemma lsteps_app lg l1 : forall s l2, lsteps lg s (l1 ++ l2) = let! s := lsteps lg s l1 in lsteps lg s l2.
Proof. induction l1 as [|x l1 IH]; intros s l2; cbn [app lsteps obind]; [reflexivity|]. destruct (lstep lg s x); cbn [obind]; [apply IH|reflexivity]. Qed.
Lemma double_free bad fields l : late_failure bad -> life lreg_self bad fields true l = UB.
Proof.
  intros [B H]. assert (forall x, In x before_path -> bad x = false) as B' by exact B. unfold life, init_command.
  rewrite (B I_ctx), (B I_ini), (B I_prot), (B I_reg), (B I_prn), (B I_res), (B I_add), (B I_common), (B I_path) by (cbn; tauto). cbn [orb andb l_file l_import lreg_self obind l_session].
  assert (bad I_handler || bad I_sched = true) as -> by now apply orb_true_iff. reflexivity.
Qed.
Definition keys_lost (fields : list field) : Prop := In F_not_set fields.
Lemma made_not_late lg bad fields path m c : In lg commands -> init_command lg bad fields path = Ok (m, Some c) -> ~ (l_file lg = true /\ path = true /\ late_failure bad).
Proof.
  intros I E (F & -> & L). assert (lg = lreg_self) as -> by (unfold commands in I; cbn [In] in I; intuition subst; try discriminate; reflexivity).
  pose proof (double_free bad fields [] L) as U. unfold life in U. rewrite E in U. cbn [obind lsteps] in U.
  destruct (init_ok lreg_plain True) with (bad := fun _ : istep => false) (fields := @nil field) (path := false) as (m1 & made1 & _); [cbn; tauto|tauto|intros (H & _); discriminate|].
  destruct (destroy_command lreg_self m) eqn:D; [discriminate|]. clear - E L. destruct L as [B H]. unfold init_command in E.
  rewrite (B I_ctx), (B I_ini), (B I_prot), (B I_reg), (B I_prn), (B I_res), (B I_add), (B I_common), (B I_path) in E by (cbn; tauto). cbn [orb andb l_file l_import lreg_self obind l_session] in E.
  assert (bad I_handler || bad I_sched = true) as R by now apply orb_true_iff. rewrite R in E. discriminate.
Qed.
Lemma steps_good lg fields bad path l : In lg commands -> forall c m0, init_command lg bad fields path = Ok (m0, Some c) -> (l_scan lg = true -> udev_in_first lg bad fields path l) ->
  exists s, lsteps lg (Sys c [], m0) l = Ok s /\ good lg (keys_lost fields) s.
Proof.
  intros I c m0 E Ud. revert Ud. induction l as [|x l IH] using rev_ind; intros Ud.
  - exists (Sys c [], m0). split; [reflexivity|]. destruct (init_ok lg (keys_lost fields) I bad fields path) as (m & made & E2 & G); [auto|now apply made_not_late with (fields := fields) (m := m0) (c := c)|].
    rewrite E in E2. inversion E2. subst. exact G.
  - destruct IH as (s & Es & G).
    { intros Sc l1 a e l2 s m H. apply (Ud Sc l1 a e (l2 ++ [x])). rewrite H, <- app_assoc. reflexivity. }
    rewrite lsteps_app, Es. cbn [obind lsteps]. destruct (step_good lg (keys_lost fields) I s x G) as (s' & E' & G').
    + intros a e Sc -> U. destruct s as [y m]. apply (Ud Sc l a e [] y m); auto. exists c, m0. auto.
    + rewrite E'. cbn [obind]. eauto.
Qed.
Lemma history_good lg bad fields path l s m : In lg commands -> (l_scan lg = true -> udev_in_first lg bad fields path l) -> history lg bad fields path l s m -> good lg (keys_lost fields) (s, m).
Proof. intros I Ud (c & m0 & E & H). destruct (steps_good lg fields bad path l I c m0 E Ud) as (s' & E' & G). rewrite E' in H. inversion H. now subst. Qed.

Lemma scan_is lg : In lg commands -> l_scan lg = true -> lg = lreg_scan.
Proof. unfold commands. cbn [In]. intuition subst; try discriminate; reflexivity. Qed.
Lemma asks_is lg : In lg commands -> asks_main (l_reg lg) = true -> lg = lreg_resources.
Proof. unfold commands. cbn [In]. intuition subst; try discriminate; reflexivity. Qed.
Lemma file_is lg : In lg commands -> l_file lg = true -> lg = lreg_self.
Proof. unfold commands. cbn [In]. intuition subst; try discriminate; reflexivity. Qed.
Lemma cmd_other lg K c m : In lg commands -> placed lg K c m -> l_scan lg = false -> at_word m W_uns = None.
Proof.
  intros I (_ & _ & _ & H) Sc. destruct H as [H | [H | [H | [H | H]]]]; [apply H|apply H|exfalso; destruct H as (_ & H & _); congruence|exfalso; destruct H as (_ & H & _); congruence|apply H].
Qed.
Lemma left_is lg bad fields path l s m m' p : In lg commands -> (l_scan lg = true -> udev_in_first lg bad fields path l) -> history lg bad fields path l s m ->
  destroy_command lg m = Ok m' -> In p (live m') -> (fst p = W_key /\ In F_not_set fields) \/ (lg = lreg_resources /\ fst p = W_cmd) \/
   (at_word m (fst p) = Some p /\ ((fst p = W_uns /\ lg = lreg_scan) \/ (fst p = W_cmd /\ asks_main (l_reg lg) = false))).
Proof.
  intros I Ud H D L. pose proof (history_good lg bad fields path l s m I Ud H) as [Pl _]. cbn [fst snd] in Pl. pose proof Pl as (W & _).
  destruct (left_piece lg (keys_lost fields) m m' p W D L) as [[Q | [Q1 Q2]] | [Q1 [Q2 | Q2]]].
  - left. exact Q.
  - right. left. split; [now apply asks_is|exact Q2].
  - right. right. split; [exact Q1|]. left. split; [exact Q2|]. destruct (l_scan lg) eqn:Sc; [now apply scan_is|]. rewrite Q2 in Q1. rewrite (cmd_other lg _ _ m I Pl Sc) in Q1. discriminate.
  - right. right. auto.
Qed.
Lemma lone lg : In lg commands -> l_scan lg = false -> asks_main (l_reg lg) = false -> lg <> lreg_scan /\ lg <> lreg_resources.
Proof. intros I S A. split; intros ->; discriminate. Qed.
Lemma left_by_lemma lg bad fields path l s m m' p : In lg commands -> (l_scan lg = true -> udev_in_first lg bad fields path l) -> history lg bad fields path l s m ->
  destroy_command lg m = Ok m' -> In p (live m') -> left_by lg fields p.
Proof.
  intros I Ud H D L. destruct (left_is lg bad fields path l s m m' p I Ud H D L) as [Q | [Q | [Q [[Q1 Q2] | [Q1 Q2]]]]]; unfold left_by; auto.
  right. left. split; [|auto]. destruct (l_scan lg) eqn:Sc; [now apply scan_is|]. exfalso.
  destruct (history_good lg bad fields path l s m I) as [(W & _) _]; [congruence|exact H|]. cbn [fst snd] in W. destruct W as (_ & _ & _ & _ & _ & Kc). rewrite Q1, Kc in Q; auto; discriminate.
Qed.
Lemma life_lemma lg bad fields path l : In lg commands -> ~ (lg = lreg_self /\ path = true /\ late_failure bad) -> (lg = lreg_scan -> udev_in_first lg bad fields path l) ->
  exists left, life lg bad fields path l = Ok left /\ (forall p, In p left -> left_by lg fields p).
Proof.
  intros I NL Ud. destruct (init_ok lg (keys_lost fields) I bad fields path) as (m0 & made & E & G); [auto|intros (F & Pa & La); apply NL; split; [now apply file_is|auto]|].
  assert (Ud' : l_scan lg = true -> udev_in_first lg bad fields path l) by (intros Sc; apply Ud; now apply scan_is).
  unfold life. rewrite E. cbn [obind]. destruct made as [c|]; [|eexists; split; [reflexivity|intros p H; left; now apply G]].
  destruct (steps_good lg fields bad path l I c m0 E Ud') as ([s m] & Es & [(W & _) _]). rewrite Es. cbn [obind]. cbn [fst snd] in W.
  destruct (destroy_ok lg (keys_lost fields) m W) as (m' & D & _). rewrite D. cbn [obind]. eexists. split; [reflexivity|]. intros p H.
  apply left_by_lemma with (bad := bad) (path := path) (l := l) (s := s) (m := m) (m' := m'); auto. exists c, m0. auto.
Qed.
Lemma nothing_left (left : list piece) : (forall p, In p left -> False) -> left = [].
Proof. destruct left as [|p l]; [reflexivity|]. intros H. destruct (H p). now left. Qed.
Lemma others_lemma lg bad fields path l : In lg [lreg_checkpoint; lreg_plain; lreg_print; lreg_dbdump; lreg_self] -> ~ In F_not_set fields -> ~ (lg = lreg_self /\ path = true /\ late_failure bad) ->
  life lg bad fields path l = Ok [].
Proof.
  intros I K NL. assert (I2 : In lg commands) by (unfold commands; cbn [In] in *; tauto).
  assert (N : lg <> lreg_scan /\ lg <> lreg_resources) by (cbn [In] in I; intuition subst; discriminate).
  destruct (life_lemma lg bad fields path l I2 NL) as (left & E & L); [tauto|]. rewrite E. f_equal. apply nothing_left. intros p H. apply L in H. unfold left_by in H. tauto.
Qed.
Lemma scan_in : In lreg_scan commands. Proof. cbn; auto. Qed.
Lemma resources_in : In lreg_resources commands. Proof. cbn; tauto. Qed.
Lemma ends_some lg K m : wf lg K m -> exists m', destroy_command lg m = Ok m'.
Proof. intros W. destruct (destroy_ok lg K m W) as (m' & D & _). eauto. Qed.
Lemma scan_finished_lemma bad fields path l s m : udev_in_first lreg_scan bad fields path l -> history lreg_scan bad fields path l s m -> c_state (s_cmd s) = C_FIN -> ~ In F_not_set fields ->
  exists m', destroy_command lreg_scan m = Ok m' /\ live m' = [].
Proof.
  intros Ud H F K. destruct (history_good lreg_scan bad fields path l s m scan_in (fun _ => Ud) H) as [Pl _]. cbn [fst snd] in Pl. pose proof Pl as (W & _ & _ & Q).
  destruct (ends_some _ _ m W) as (m' & D). exists m'. split; [exact D|]. apply nothing_left. intros p Ip.
  assert (at_word m W_cmd = None /\ at_word m W_uns = None) as [N1 N2].
  { destruct Q as [Q | [Q | [Q | [Q | Q]]]].
    - destruct Q as (Q & _). congruence.
    - destruct Q as ([Q | [Q _]] & _); congruence.
    - destruct Q as ([[Q _] | [Q _]] & _); congruence.
    - destruct Q as ([Q | [Q _]] & _); congruence.
    - destruct Q as (_ & U & Q & _). destruct (Q F) as [Q1 _]. split; [now apply Q1|exact U]. }
  destruct (left_is lreg_scan bad fields path l s m m' p scan_in (fun _ => Ud) H D Ip) as [Q2 | [[Q2 _] | [Q2 [[Q3 _] | [Q3 _]]]]]; [tauto|discriminate|rewrite Q3 in Q2; congruence|rewrite Q3 in Q2; congruence].
Qed.
Lemma scan_iterator_lemma bad fields path l s m : udev_in_first lreg_scan bad fields path l -> history lreg_scan bad fields path l s m -> In (c_state (s_cmd s)) [C_STG_WAIT; C_TIM_OUT] ->
  exists m' n, destroy_command lreg_scan m = Ok m' /\ In (W_cmd, n) (live m').
Proof.
  intros Ud H F. destruct (history_good lreg_scan bad fields path l s m scan_in (fun _ => Ud) H) as [Pl _]. cbn [fst snd] in Pl. pose proof Pl as (W & _ & _ & Q).
  destruct (ends_some _ _ m W) as (m' & D).
  assert (is m W_cmd) as N.
  { cbn [In] in F. destruct Q as [Q | [Q | [Q | [Q | Q]]]].
    - exfalso. destruct Q as (Q & _). rewrite Q in F. intuition discriminate.
    - exfalso. destruct Q as (_ & Q & _). discriminate.
    - apply Q.
    - exfalso. destruct Q as ([Q | [Q _]] & _); rewrite Q in F; intuition discriminate.
    - destruct Q as (Q1 & _ & _ & Q). destruct F as [F | [F | []]]; [|now apply Q]. exfalso. destruct Q1 as [Q1 | [Q1 _]]; rewrite <- F in Q1; [cbn [In] in Q1; intuition discriminate|discriminate]. }
  destruct (at_word m W_cmd) as [[w n]|] eqn:E; [|now destruct N]. exists m', n. split; [exact D|].
  destruct (left_held _ _ m m' (w, n) W_cmd W D E) as [L Fw]; [cbn; intuition discriminate|]. cbn in Fw. now subst.
Qed.
Lemma scan_unset_lemma bad fields path l s m : udev_in_first lreg_scan bad fields path l -> history lreg_scan bad fields path l s m -> c_state (s_cmd s) = C_EXPBUF_WAIT_ACK ->
  exists m' n, destroy_command lreg_scan m = Ok m' /\ In (W_uns, n) (live m').
Proof.
  intros Ud H F. destruct (history_good lreg_scan bad fields path l s m scan_in (fun _ => Ud) H) as [Pl _]. cbn [fst snd] in Pl. pose proof Pl as (W & _ & _ & Q).
  destruct (ends_some _ _ m W) as (m' & D).
  assert (is m W_uns) as N.
  { destruct Q as [Q | [Q | [Q | [Q | Q]]]].
    - exfalso. destruct Q as (Q & _). congruence.
    - exfalso. destruct Q as (_ & Q & _). discriminate.
    - exfalso. destruct Q as ([[Q _] | [Q _]] & _); congruence.
    - apply Q.
    - exfalso. destruct Q as ([Q | [Q _]] & _); [|congruence]. rewrite F in Q. cbn [In] in Q. intuition discriminate. }
  destruct (at_word m W_uns) as [[w n]|] eqn:E; [|now destruct N]. exists m', n. split; [exact D|].
  destruct (left_held _ _ m m' (w, n) W_uns W D E) as [L Fw]; [cbn; intuition discriminate|]. cbn in Fw. now subst.
Qed.
Lemma resources_lemma bad fields path l s m : history lreg_resources bad fields path l s m -> c_state (s_cmd s) = C_FIN ->
  exists m' n, destroy_command lreg_resources m = Ok m' /\ In (W_cmd, n) (live m').
Proof.
  intros H F. destruct (history_good lreg_resources bad fields path l s m resources_in) as [Pl _]; [discriminate|exact H|]. cbn [fst snd] in Pl. pose proof Pl as (W & _ & _ & Q).
  destruct (ends_some _ _ m W) as (m' & D).
  assert (lost_map m) as ([w n] & I & E & N).
  { destruct Q as [Q | [Q | [Q | [Q | Q]]]].
    - exfalso. destruct Q as (Q & _). congruence.
    - exfalso. destruct Q as ([Q | [Q _]] & _); congruence.
    - exfalso. destruct Q as (_ & Q & _). discriminate.
    - exfalso. destruct Q as (_ & Q & _). discriminate.
    - destruct Q as (_ & _ & Q & _). destruct (Q F) as [_ Q1]. now apply Q1. }
  cbn in E. subst w. exists m', n. split; [exact D|]. now apply (left_lost lreg_resources (keys_lost fields) m m' (W_cmd, n) W D).
Qed.
Lemma second_stage_lemma bad fields path l s m a e : udev_in_first lreg_scan bad fields path l -> history lreg_scan bad fields path l s m ->
  c_state (s_cmd s) = C_EXE_SCHED -> c_prev (s_cmd s) = C_STG_WAIT -> c_armed (s_cmd s) = true -> c_ended (s_cmd s) = false ->
  e_b_init e = true -> (0 <= an_exec a)%Z -> e_udev e = true -> lstep lreg_scan (s, m) (L_handler a e) = UB.
Proof.
  intros Ud H S P A En B X U. destruct (history_good lreg_scan bad fields path l s m scan_in (fun _ => Ud) H) as [Pl _]. cbn [fst snd] in Pl. pose proof Pl as (W & _ & _ & Q).
  assert (c_stage (s_cmd s) = 2 /\ null m W_res /\ is m W_cmd) as (St & R & I).
  { destruct Q as [Q | [Q | [Q | [Q | Q]]]].
    - exfalso. destruct Q as (_ & Q & _). congruence.
    - exfalso. destruct Q as (_ & Q & _). discriminate.
    - destruct Q as ([[Q _] | (_ & _ & Q)] & _ & R & _ & _ & I); [congruence|auto].
    - exfalso. destruct Q as ([Q | [_ Q]] & _); congruence.
    - exfalso. destruct Q as ([Q | [_ Q]] & _); [rewrite S in Q|rewrite P in Q]; cbn [In] in Q; intuition discriminate. }
  unfold lstep. rewrite A, En. cbn [andb negb]. unfold handler_m, handler_body_m. cbn [fst snd]. replace (c_state (disarm (s_cmd s))) with C_EXE_SCHED by (cbn; now rewrite S).
  replace (c_prev (disarm (s_cmd s))) with C_STG_WAIT by (cbn; now rewrite P). cbn [state_eqb negb in_set existsb orb].
  set (d := disarm (s_cmd s)). assert (Sd : c_state d = C_EXE_SCHED) by exact S.
  rewrite change_plain; [|rewrite Sd; discriminate|cbn; intuition discriminate]. unfold andthen_m at 1. cbn [obind]. rewrite ltb0. unfold exec_m. change (asks_main (l_reg lreg_scan)) with false. change (l_scan lreg_scan) with true. cbv iota.
  set (d2 := set_state d C_EXE_RUN (c_stage d) (c_timer d) (c_armed d)). replace (c_stage d2) with 2 by (symmetry; exact St). cbn [exec_scan]. rewrite (access_wf lreg_scan _ m W_cmd W I). cbn [obind].
  rewrite B. cbn [negb]. destruct (drop_clear_wf lreg_scan _ m W_cmd W) as (m1 & E1 & W1 & Z1 & O & _); [discriminate|]. rewrite E1. cbn [obind]. rewrite plain_exec by reflexivity. cbn [obind with_exec an_exec].
  assert ((an_exec a <? 0)%Z = false) as -> by lia. cbn [fst c_state emit d2 set_state state_eqb]. rewrite change_plain; [|cbn; discriminate|cbn; intuition discriminate].
  unfold andthen_m at 1. cbn [obind]. rewrite ltb0. unfold handler_build_m. cbn [fst c_state set_state]. unfold build_m. destruct (build_buffers _ _ a) as [c3 r3]. change (negb (exports (l_reg lreg_scan))) with false. change (l_udev lreg_scan) with true. cbv iota. cbn [andb].
  rewrite U. unfold access. rewrite O by discriminate. rewrite R. reflexivity.
Qed.
