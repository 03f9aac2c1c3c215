(* Proofs about worker channels: whole histories of a link. *)
From Verif Require Import Base Buf_Model Buf_Spec Buf_Proofs Buf_IO Wrk_Model Wrk_Spec Wrk_Proofs Wrk_Proofs2.
Local Open Scope N_scope.

Lemma int_snug : snug int_init.
Proof. unfold snug, int_init; cbn; lia. Qed.
Lemma tx_grows i : tx_ok i -> grows (lane_init i int_init).
Proof.
  intros [-> |H].
  - cbn. apply snug_grows, int_snug.
  - unfold lane_init. replace (istep i =? 0) with false by lia. rewrite orb_true_r. exact H.
Qed.
Lemma rx_snug i : rx_ok i -> snug (lane_init i int_init).
Proof.
  intros [-> |H].
  - cbn. apply int_snug.
  - unfold lane_init. destruct H as [H1 [H2 H3]]. rewrite H2. rewrite orb_true_r. split; auto.
Qed.

Definition tx_ready (it : bufinit) (c : chan) : Prop := grows it /\ exists b, ch_tx c = Some b /\ fresh PREFIX it b.

Definition linv (sd : side) (sp : chanspec) (it ir : bufinit) (l : link) (todo : list sentmsg) : Prop :=
  ch_spec (lk_tx l) = sp /\ tx_ready it (lk_tx l) /\ ch_side (lk_rx l) = sd /\ ch_spec (lk_rx l) = sp /\
  Forall small todo /\ (exists b, ch_rx (lk_rx l) = Some b /\ rxinv (s_wire sp) ir todo b (lk_str l)) /\
  (lk_gone l = true -> lk_closed l = true /\ todo = []).

Lemma mk_inl ao want m i b : mk ao want m i = Ok (inl b) -> match b with Some b => linear_create ao m i = Ok (inl b) | None => want = false end.
Proof.
  unfold mk. destruct want; [|intro E; injection E as <-; auto].
  destruct (linear_create ao m i) as [[x|e]|]; cbn [obind]; intro E; try discriminate. injection E as <-. auto.
Qed.

Lemma setup_tx ao1 ao2 sd sp c : leads sd sp -> tx_ok (l_init (tx_lane sd sp)) ->
  setup_channel ao1 ao2 (other sd) INTERNAL sp = Ok (inl c) ->
  ch_spec c = sp /\ tx_ready (lane_init (l_init (tx_lane sd sp)) int_init) c.
Proof.
  intros L T E. apply tx_grows in T. unfold setup_channel in E. unfold tx_lane in *. unfold leads in L.
  destruct sd; cbn [other] in E;
    (destruct (mk ao1 _ _ _) as [[b1|e]|] eqn:M1; [cbn [obind] in E|discriminate|discriminate]);
    (destruct (mk ao2 _ _ _) as [[b2|e]|] eqn:M2; [cbn [obind] in E|discriminate|discriminate]);
    injection E as <-; cbn [ch_spec ch_tx]; split; auto; split; auto; cbn [ch_tx];
    apply mk_inl in M1; apply mk_inl in M2.
  - destruct b1 as [b1|]; [|destruct (s_wire sp); try discriminate; contradiction].
    exists b1. split; auto. apply create_fresh in M1; auto. apply M1.
  - destruct b2 as [b2|]; [|destruct (s_wire sp); try discriminate; contradiction].
    exists b2. split; auto. apply create_fresh in M2; auto. apply M2.
Qed.

Lemma setup_rx ao1 ao2 sd sp c : leads sd sp -> rx_ok (l_init (rx_lane sd sp)) ->
  setup_channel ao1 ao2 sd INTERNAL sp = Ok (inl c) ->
  let i := lane_init (l_init (rx_lane sd sp)) int_init in
  ch_side c = sd /\ ch_spec c = sp /\ snug i /\ exists b, ch_rx c = Some b /\ fresh PREFIX i b /\ allocated b = 4 + isize i.
Proof.
  intros L T E. apply rx_snug in T. cbv zeta. unfold setup_channel in E. unfold rx_lane in *. unfold leads in L.
  destruct sd;
    (destruct (mk ao1 _ _ _) as [[b1|e]|] eqn:M1; [cbn [obind] in E|discriminate|discriminate]);
    (destruct (mk ao2 _ _ _) as [[b2|e]|] eqn:M2; [cbn [obind] in E|discriminate|discriminate]);
    injection E as <-; cbn [ch_spec ch_rx ch_side]; split; auto; split; auto; split; auto;
    apply mk_inl in M1; apply mk_inl in M2.
  - destruct b1 as [b1|]; [|destruct (s_wire sp); try discriminate; contradiction].
    exists b1. split; auto. apply create_fresh in M1; [exact M1|apply snug_grows; auto].
  - destruct b2 as [b2|]; [|destruct (s_wire sp); try discriminate; contradiction].
    exists b2. split; auto. apply create_fresh in M2; [exact M2|apply snug_grows; auto].
Qed.

Lemma send_msg a sp it c m : ch_spec c = sp -> tx_ready it c ->
  match m with SData d => calm (LSend a d) | SYield => calm (LYield a) end ->
  exists c', match m with SData d => chan_send a c d | SYield => chan_yield a c end = Ok (c', Some 0%Z, on_wire (s_wire sp) m) /\
    ch_spec c' = sp /\ tx_ready it c' /\ small m.
Proof.
  intros S [G [b [B F]]] C. destruct m as [d|].
  - destruct C as [C1 C2]. unfold chan_send.
    destruct (send_lemma a c (match d_ext d with Some _ => CMD_DATA_EXT | None => CMD_DATA end) (Some d) b it B F G C1 C2) as [b' [E F']].
    exists (with_tx c b'). rewrite E. split; [|split; [auto|split; [split; auto; exists b'; auto|]]].
    + do 2 f_equal. unfold on_wire. cbn [payload]. f_equal. unfold ext_part. rewrite S. destruct (s_wire sp); reflexivity.
    + unfold small. cbn [payload]. rewrite len_app, cmd_bytes_len. clear - C1; lia.
  - cbn [calm] in C. unfold chan_yield. destruct (send_lemma a c CMD_YIELD None b it B F G) as [b' [E F']]; [cbn; pw; lia|exact C|].
    exists (with_tx c b'). rewrite E. split; [|split; [auto|split; [split; auto; exists b'; auto|]]].
    + do 2 f_equal.
    + unfold small. cbn [payload]. rewrite cmd_bytes_len. pw. lia.
Qed.

Definition sends (closed : bool) (ops : list lkop) := if closed then [] else sent ops.

Lemma step_lemma sd sp it ir l todo o t :
  linv sd sp it ir l todo -> snug ir -> len (suffix sd sp) <= 2 ^ 33 -> calm o ->
  exists l' r d todo', link_step l o = Ok (l', r) /\ went_well r /\
    todo ++ sends (lk_closed l) (o :: t) = (d ++ todo') ++ sends (lk_closed l') t /\
    done [r] = map (response sd sp) d /\ linv sd sp it ir l' todo' /\
    (match o with LEvent e => give e -> todo <> [] -> (length (lk_str l') < length (lk_str l))%nat | _ => True end) /\
    (match o with LEvent e => (length (lk_str l') <= length (lk_str l))%nat | _ => True end) /\
    (match o with LEvent e => give e -> todo = [] -> lk_closed l = true -> lk_gone l' = true | _ => True end) /\
    (match o with LEvent e => lk_closed l' = lk_closed l | _ => True end).
Proof.
  intros [I1 [I2 [I3 [I4 [I5 [[b [I6 I7]] I8]]]]]] G SL C.
  assert (SEND : forall m a, o = match m with SData d => LSend a d | SYield => LYield a end ->
    exists l' r d todo', link_step l o = Ok (l', r) /\ went_well r /\
    todo ++ sends (lk_closed l) (o :: t) = (d ++ todo') ++ sends (lk_closed l') t /\
    done [r] = map (response sd sp) d /\ linv sd sp it ir l' todo').
  { intros m a ->. destruct (lk_closed l) eqn:CL.
    - exists l, (LRSent (Some (- EBADF)%Z)), [], todo.
      split; [destruct m; cbn [link_step]; rewrite CL; reflexivity|]. split; [right; reflexivity|].
      rewrite CL. split; [reflexivity|]. split; [reflexivity|].
      split; [exact I1|]. split; [exact I2|]. split; [exact I3|]. split; [exact I4|]. split; [exact I5|].
      split; [exists b; auto|]. rewrite CL. exact I8.
    - destruct (send_msg a sp it (lk_tx l) m I1 I2) as [c' [E [S' [T' SM]]]]; [destruct m; exact C|].
      assert (NG : lk_gone l = false) by (destruct (lk_gone l); auto; destruct (I8 eq_refl); discriminate).
      eexists {| lk_tx := c'; lk_rx := lk_rx l; lk_str := lk_str l ++ on_wire (s_wire sp) m; lk_closed := false; lk_gone := lk_gone l |},
        (LRSent (Some 0%Z)), [], (todo ++ [m]).
      split; [destruct m; cbn [link_step]; rewrite CL, E; reflexivity|]. split; [left; reflexivity|].
      split; [destruct m; cbn [sends sent lk_closed app]; rewrite <- app_assoc; reflexivity|].
      split; [reflexivity|].
      assert (SM2 : Forall small (todo ++ [m])) by (apply Forall_app; auto).
      split; [exact S'|]. split; [exact T'|]. split; [exact I3|]. split; [exact I4|]. split; [exact SM2|].
      split; [exists b; split; auto; apply rx_more; auto|]. cbn [lk_gone]. rewrite NG. discriminate. }
  destruct o as [a d|a|e|].
  - destruct (SEND (SData d) a eq_refl) as [l' [r [x [y [A1 [A2 [A3 [A4 A5]]]]]]]]. exists l', r, x, y. auto 20.
  - destruct (SEND SYield a eq_refl) as [l' [r [x [y [A1 [A2 [A3 [A4 A5]]]]]]]]. exists l', r, x, y. auto 20.
  - clear SEND. destruct (lk_gone l) eqn:GN.
    + destruct (I8 eq_refl) as [CL ->]. exists l, LRNone, [], []. cbn [link_step]. rewrite GN, CL. split; auto. split; [exact I|].
      split; [reflexivity|]. split; [reflexivity|].
      split; [|split; [intros _ Q; contradiction|split; [constructor|split; auto]]].
      split; [exact I1|]. split; [exact I2|]. split; [exact I3|]. split; [exact I4|]. split; [exact I5|].
      split; [exists b; auto|]. auto.
    + destruct (event_lemma e (lk_closed l) (lk_rx l) b (s_wire sp) ir todo (lk_str l) I6) as [b' [s' [acts [gone [todo' [E [R' [A [GO [P1 P2]]]]]]]]]]; auto.
      { rewrite I4. auto. } { rewrite I3, I4. auto. }
      exists {| lk_tx := lk_tx l; lk_rx := with_rx (lk_rx l) b'; lk_str := s'; lk_closed := lk_closed l; lk_gone := gone |}, (LREvent (Some 0%Z) acts).
      cbn [link_step]. rewrite GN, E. cbn [obind].
      assert (X : exists d, todo = d ++ todo' /\ acts = map (response sd sp) d).
      { destruct A as [[-> ->]|[m [-> ->]]]; [exists []; auto|]. exists [m]. rewrite I3, I4. auto. }
      destruct X as [d [X1 X2]]. exists d, todo'. split; [reflexivity|]. split; [reflexivity|].
      split. { rewrite X1. cbn [lk_closed]. f_equal. }
      split; [cbn; rewrite app_nil_r; auto|]. cbn [lk_str lk_closed lk_gone].
      split; [|split; [auto|split; [auto|split; [|auto]]]].
      * split; [exact I1|]. split; [exact I2|]. split; [exact I3|]. split; [exact I4|]. split.
        { rewrite X1, Forall_app in I5. apply I5. }
        split; [exists b'; auto|]. cbn [lk_gone lk_closed]. intro Q. apply GO in Q. destruct Q as [Q1 [Q2 _]]. split; auto.
        rewrite Q1 in X1. destruct d; [auto|discriminate].
      * intros G1 G2 G3. apply GO. auto.
  - clear SEND. exists {| lk_tx := lk_tx l; lk_rx := lk_rx l; lk_str := lk_str l; lk_closed := true; lk_gone := lk_gone l |}, LRNone, [], todo.
    split; [reflexivity|]. split; [exact I|]. split. { cbn [lk_closed sends app]. destruct (lk_closed l); reflexivity. }
    split; [reflexivity|]. split; [|auto].
    split; [exact I1|]. split; [exact I2|]. split; [exact I3|]. split; [exact I4|]. split; [exact I5|].
    split; [exists b; auto|]. cbn [lk_gone lk_closed]. intro Q. split; auto. apply I8; auto.
Qed.

Lemma done_cons r rs : done (r :: rs) = done [r] ++ done rs.
Proof. destruct r; cbn; rewrite ?app_nil_r; auto. Qed.

Lemma run_lemma sd sp it ir ops : snug ir -> len (suffix sd sp) <= 2 ^ 33 -> forall l todo, linv sd sp it ir l todo -> Forall calm ops ->
  exists l' rs d todo', link_run l ops = Ok (l', rs) /\ Forall went_well rs /\
    todo ++ sends (lk_closed l) ops = d ++ todo' /\ done rs = map (response sd sp) d /\ linv sd sp it ir l' todo'.
Proof.
  intros G SL. induction ops as [|o ops IH]; intros l todo I F.
  - exists l, [], [], todo. split; [reflexivity|]. split; auto. split; [|auto]. unfold sends. destruct (lk_closed l); apply app_nil_r.
  - inversion F as [|? ? F1 F2]; subst.
    destruct (step_lemma sd sp it ir l todo o ops I G SL F1) as [l1 [r [d [todo1 [E [W [S [D [I1 _]]]]]]]]].
    destruct (IH l1 todo1 I1 F2) as [l2 [rs [d2 [todo2 [E2 [W2 [S2 [D2 I2]]]]]]]].
    exists l2, (r :: rs), (d ++ d2), todo2. cbn [link_run]. rewrite E. cbn [obind]. rewrite E2. split; [reflexivity|].
    split; [auto|]. split; [rewrite S, <- !app_assoc, S2; reflexivity|]. split; auto.
    rewrite done_cons, D, D2, map_app. auto.
Qed.

Lemma linv_stream sd sp it ir l todo : linv sd sp it ir l todo -> (lk_str l = [] <-> todo = []).
Proof.
  intros [_ [_ [_ [_ [_ [[b [_ [_ [_ R]]]] _]]]]]]. destruct todo as [|m t]; [split; [auto|intros _; apply R]|].
  destruct R as [_ [_ [U S]]]. split; [|discriminate]. intro Q. rewrite Q in S. apply (f_equal (@length _)) in S.
  rewrite skipn_length in S. unfold wires in S. cbn [flat_map] in S.
  rewrite app_length, len_on_wire in S. cbn [length] in S. unfold len in U. clear - U S. exfalso. unfold sbyte in *. lia.
Qed.

Lemma start sd sp ct cr ao1 ao2 ao3 ao4 :
  leads sd sp -> tx_ok (l_init (tx_lane sd sp)) -> rx_ok (l_init (rx_lane sd sp)) ->
  setup_channel ao1 ao2 (other sd) INTERNAL sp = Ok (inl ct) -> setup_channel ao3 ao4 sd INTERNAL sp = Ok (inl cr) ->
  exists it ir, snug ir /\ linv sd sp it ir {| lk_tx := ct; lk_rx := cr; lk_str := []; lk_closed := false; lk_gone := false |} [].
Proof.
  intros L T R ET ER. destruct (setup_tx _ _ _ _ _ L T ET) as [A B]. destruct (setup_rx _ _ _ _ _ L R ER) as [C [D [E [b [F [H K]]]]]].
  eexists _, _. split; [exact E|]. split; [exact A|]. split; [exact B|]. split; [exact C|]. split; [exact D|]. split; [constructor|].
  cbn [lk_rx lk_str lk_gone]. split; [|discriminate]. exists b. split; auto. apply (rx_idle (s_wire sp) _ [] b); auto.
Qed.

Lemma delivers_lemma sd sp ct cr ao1 ao2 ao3 ao4 ops :
  leads sd sp -> tx_ok (l_init (tx_lane sd sp)) -> rx_ok (l_init (rx_lane sd sp)) -> len (suffix sd sp) <= 2 ^ 33 ->
  setup_channel ao1 ao2 (other sd) INTERNAL sp = Ok (inl ct) -> setup_channel ao3 ao4 sd INTERNAL sp = Ok (inl cr) ->
  Forall calm ops ->
  exists l rs, link_run {| lk_tx := ct; lk_rx := cr; lk_str := []; lk_closed := false; lk_gone := false |} ops = Ok (l, rs) /\
    Forall went_well rs /\ exists d todo, sent ops = d ++ todo /\ done rs = map (response sd sp) d /\
    (lk_str l = [] <-> todo = []) /\ (lk_gone l = true -> lk_closed l = true /\ todo = []).
Proof.
  intros L T R SL ET ER C. destruct (start sd sp ct cr _ _ _ _ L T R ET ER) as [it [ir [G I]]].
  destruct (run_lemma sd sp it ir ops G SL _ _ I C) as [l [rs [d [todo [E [W [S [D I2]]]]]]]].
  exists l, rs. split; auto. split; auto. exists d, todo. split; [exact S|]. split; auto. split; [eapply linv_stream; eauto|]. apply I2.
Qed.

Lemma drain_lemma sd sp it ir evs : snug ir -> len (suffix sd sp) <= 2 ^ 33 -> forall l todo, linv sd sp it ir l todo ->
  Forall calm evs -> Forall giving evs -> (length (lk_str l) <= length evs)%nat ->
  exists l' rs, link_run l evs = Ok (l', rs) /\ done rs = map (response sd sp) todo /\ linv sd sp it ir l' [] /\
    lk_closed l' = lk_closed l /\ (lk_closed l = true -> (length (lk_str l) < length evs)%nat -> lk_gone l' = true).
Proof.
  intros G SL. induction evs as [|o evs IH]; intros l todo I C V L.
  - assert (todo = []) as ->. { apply (linv_stream _ _ _ _ _ _ I). destruct (lk_str l); [auto|cbn in L; lia]. }
    exists l, []. split; [reflexivity|]. split; auto. split; auto. split; auto. cbn. intros _ X. clear - X. lia.
  - inversion C as [|? ? C1 C2]; subst. inversion V as [|? ? V1 V2]; subst.
    destruct o as [|?|e|]; try contradiction V1. cbn [giving] in V1.
    destruct (step_lemma sd sp it ir l todo (LEvent e) [] I G SL C1) as [l1 [r [d [todo1 [E [W [S [D [I1 [P1 [P2 [P3 P4]]]]]]]]]]]].
    assert (EQ : todo = d ++ todo1).
    { unfold sends in S. cbn [sent] in S. destruct (lk_closed l), (lk_closed l1); rewrite !app_nil_r in S; auto. }
    assert (L1 : (length (lk_str l1) <= length evs)%nat).
    { cbn [length] in L. destruct todo as [|m t].
      - apply (linv_stream _ _ _ _ _ _ I) in EQ || (destruct d; [|discriminate]; cbn in EQ; subst todo1).
        apply (linv_stream _ _ _ _ _ _ I1) in EQ || idtac.
        assert (Z : lk_str l1 = []) by (apply (linv_stream _ _ _ _ _ _ I1); auto). rewrite Z. cbn. lia.
      - specialize (P1 V1 ltac:(discriminate)). clear - P1 L. unfold sbyte in *. lia. }
    destruct (IH l1 todo1 I1 C2 V2 L1) as [l2 [rs [E2 [D2 [I2 [CL2 GO2]]]]]].
    exists l2, (r :: rs). cbn [link_run]. rewrite E. cbn [obind]. rewrite E2. split; [reflexivity|].
    split; [rewrite done_cons, D, D2, EQ, map_app; auto|]. split; auto. split; [congruence|].
    intros CL LL. cbn [length] in LL. destruct todo as [|m t].
    + (* nothing left: this event already ends it *)
      specialize (P3 V1 eq_refl CL). clear - E2 P3 I2 CL P4.
      revert l1 rs E2 P3 P4. induction evs as [|o evs IH]; intros l1 rs E2 P3 P4; cbn [link_run] in E2; [injection E2 as <- _; auto|].
      destruct (link_step l1 o) as [[l3 r3]|] eqn:ST; [|discriminate]. cbn [obind] in E2.
      destruct (link_run l3 evs) as [[l4 rs4]|] eqn:RN; [|discriminate]. cbn [obind] in E2. injection E2 as <- <-.
      destruct o as [a d|a|e0|]; cbn [link_step] in ST.
      * rewrite P4, CL in ST. injection ST as <- _. eapply IH; eauto.
      * rewrite P4, CL in ST. injection ST as <- _. eapply IH; eauto.
      * rewrite P3 in ST. injection ST as <- _. eapply IH; eauto.
      * injection ST as <- _. eapply IH; eauto.
    + specialize (P1 V1 ltac:(discriminate)). apply GO2; [congruence|]. clear - P1 LL. unfold sbyte in *. lia.
Qed.

Lemma run_app ops1 ops2 l : link_run l (ops1 ++ ops2) =
  (let! (l1, r1) := link_run l ops1 in let! (l2, r2) := link_run l1 ops2 in Ok (l2, r1 ++ r2)).
Proof.
  revert l. induction ops1 as [|o t IH]; intro l; cbn [app link_run].
  - cbn [obind]. destruct (link_run l ops2) as [[? ?]|]; reflexivity.
  - destruct (link_step l o) as [[l1 r1]|]; [|reflexivity]. cbn [obind]. rewrite IH.
    destruct (link_run l1 t) as [[l2 r2]|]; [|reflexivity]. cbn [obind].
    destruct (link_run l2 ops2) as [[l3 r3]|]; reflexivity.
Qed.

Lemma done_app a b : done (a ++ b) = done a ++ done b.
Proof. induction a as [|r a IH]; [reflexivity|]. cbn [app]. rewrite done_cons, (done_cons r a), IH, app_assoc. auto. Qed.

Lemma finally_lemma sd sp ct cr ao1 ao2 ao3 ao4 ops evs :
  leads sd sp -> tx_ok (l_init (tx_lane sd sp)) -> rx_ok (l_init (rx_lane sd sp)) -> len (suffix sd sp) <= 2 ^ 33 ->
  setup_channel ao1 ao2 (other sd) INTERNAL sp = Ok (inl ct) -> setup_channel ao3 ao4 sd INTERNAL sp = Ok (inl cr) ->
  Forall calm ops -> Forall calm evs -> Forall giving evs ->
  exists l rs, link_run {| lk_tx := ct; lk_rx := cr; lk_str := []; lk_closed := false; lk_gone := false |} ops = Ok (l, rs) /\
    ((length (lk_str l) <= length evs)%nat ->
     exists l' rs', link_run {| lk_tx := ct; lk_rx := cr; lk_str := []; lk_closed := false; lk_gone := false |} (ops ++ evs) = Ok (l', rs') /\
       done rs' = map (response sd sp) (sent ops) /\ lk_str l' = [] /\
       (lk_closed l = true -> (length (lk_str l) < length evs)%nat -> lk_gone l' = true)).
Proof.
  intros L T R SL ET ER C CE V. destruct (start sd sp ct cr _ _ _ _ L T R ET ER) as [it [ir [G I]]].
  destruct (run_lemma sd sp it ir ops G SL _ _ I C) as [l [rs [d [todo [E [W [S [D I2]]]]]]]].
  exists l, rs. split; auto. intro LE. destruct (drain_lemma sd sp it ir evs G SL l todo I2 CE V LE) as [l2 [rs2 [E2 [D2 [I3 [_ GO]]]]]].
  exists l2, (rs ++ rs2). rewrite run_app, E. cbn [obind]. rewrite E2. split; [reflexivity|].
  cbn [app sends lk_closed] in S. rewrite done_app, D, D2, S, map_app. split; auto. split; auto.
  apply (linv_stream _ _ _ _ _ _ I3). auto.
Qed.
