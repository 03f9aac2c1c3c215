(* Proofs about worker channels: receiving, and whole histories. *)
From Verif Require Import Base Buf_Model Buf_Spec Buf_Proofs Buf_IO Wrk_Model Wrk_Spec Wrk_Proofs.
Local Open Scope N_scope.

Definition snug (i : bufinit) : Prop := isize i <= 4 /\ istep i = 1 /\ ilimit i = 0.
Lemma snug_grows i : snug i -> grows i.
Proof. intros [A [B C]]. unfold grows. rewrite B. pw. lia. Qed.

Lemma rinv_more w x b s : rinv w b s -> rinv (w ++ x) b (s ++ x).
Proof.
  intros [j [S [J [U [M [A4 [JA [A [t T]]]]]]]]]. exists j. rewrite app_length.
  split; [rewrite skipn_app; replace (j - length w)%nat with 0%nat by lia; subst s; reflexivity|].
  split; [lia|]. repeat split; auto. exists t. rewrite T. f_equal. f_equal. rewrite firstn_app.
  replace (j - length w)%nat with 0%nat by lia. cbn [firstn]. rewrite app_nil_r. auto.
Qed.

Lemma fresh_rinv i b w : fresh PREFIX i b -> rinv w b w.
Proof.
  intros [M [BI [U [MK [P A]]]]]. cbn [pfx] in P. exists 0%nat. cbn [skipn firstn map app].
  repeat split; auto; try lia. exists (bmem b). auto.
Qed.

Lemma fresh_dinv i b p rest : snug i -> fresh PREFIX i b -> allocated b = 4 + isize i -> 4 <= len p -> 4 + len p < 2 ^ 32 ->
  dinv p rest b (message p ++ rest) /\ exact_alloc b (4 + len p).
Proof.
  intros G F AL L L2. pose proof F as [M [BI [U [MK [P A]]]]]. pose proof G as [G1 [G2 G3]].
  assert (X : exact_alloc b (4 + len p)) by (split; [congruence|lia]).
  split; auto. split; [eapply fresh_rinv; eauto|]. rewrite BI.
  split; [apply grows_valid, snug_grows; auto|]. split; [apply grows_sizes, snug_grows; auto|]. split; [lia|].
  split; auto. rewrite U. change (0 <? 4) with true. cbv iota. right. rewrite BI, G2, G3. split; [lia|]. split; auto.
  rewrite N.div_1_r. pw. lia.
Qed.

Lemma dinv_more p rest x b s : dinv p rest b s -> exact_alloc b (4 + len p) -> dinv p (rest ++ x) b (s ++ x).
Proof.
  intros [R [V [IS [UN [EX RM]]]]] XA. split; [rewrite app_assoc; apply rinv_more; auto|].
  split; [exact V|]. split; [exact IS|]. split; [exact UN|]. split; [right; exact XA|exact RM].
Qed.

Lemma rinv_lrep w b s : rinv w b s -> 4 <= bused b -> lrep b (firstn (N.to_nat (bused b) - 4) (skipn 4 w)).
Proof.
  intros [j [S [J [U [M [A4 [JA [A [t T]]]]]]]]] L. split; [|split; auto].
  - exists (map Some (firstn 4 w)), t. rewrite map_length, firstn_length, M. cbn [pfx]. split; [lia|].
    rewrite T, app_assoc, <- map_app. f_equal. f_equal.
    rewrite <- (firstn_skipn 4 w) at 1. rewrite firstn_app.
    rewrite (firstn_all2 (firstn 4 w)) by (rewrite firstn_length; lia). f_equal. f_equal. rewrite firstn_length. lia.
  - left. rewrite M. cbn [pfx]. unfold len. rewrite firstn_length, skipn_length. lia.
Qed.

(* A complete message in the buffer. *)
Lemma dinv_lrep p rest b s : dinv p rest b s -> bused b = 4 + len p -> lrep b p /\ bmode b = PREFIX /\ s = rest.
Proof.
  intros [R _] U. pose proof (rinv_lrep _ _ _ R ltac:(lia)) as L. pose proof R as [j [S [J [UJ [M _]]]]].
  assert (JE : j = length (message p)) by (rewrite message_len; unfold len in *; lia).
  split; [|split; auto; subst s j; apply app_skip; auto].
  replace (firstn _ _) with p in L; auto. rewrite U. unfold message. rewrite <- app_assoc.
  rewrite (app_skip (le32_bytes (4 + len p))) by reflexivity. symmetry. apply app_first. unfold len. lia.
Qed.

Lemma load_sub b c pos n : lrep b c -> pos + n <= len c ->
  load b (pfx (bmode b) + pos) n = Ok (map Some (firstn (N.to_nat n) (skipn (N.to_nat pos) c))).
Proof.
  intros R L. pose proof (lrep_len _ _ R) as LL. unfold load. destruct (N.eqb_spec n 0) as [-> |NZ]; [reflexivity|].
  replace (_ <=? _) with true by lia. f_equal. destruct R as [[h [t [H1 H2]]] _]. rewrite H2.
  replace (N.to_nat (pfx (bmode b) + pos)) with (length h + N.to_nat pos)%nat by lia.
  rewrite skipn_app, skipn_all2, app_nil_l by lia.
  replace (length h + N.to_nat pos - length h)%nat with (N.to_nat pos) by lia.
  rewrite skipn_app, map_length.
  replace (N.to_nat pos - length c)%nat with 0%nat by (unfold len in *; lia). cbn [skipn].
  rewrite <- map_skipn', firstn_app, map_length, skipn_length.
  replace (N.to_nat n - (length c - N.to_nat pos))%nat with 0%nat by (unfold len in *; lia).
  cbn [firstn]. rewrite app_nil_r. symmetry. apply map_firstn'.
Qed.

(* The suffix of the lane. *)
Lemma add_suffix_ok c b d : lrep b d -> grows (binit b) -> bmark b = None -> len d <= 2 ^ 33 ->
  len (suffix (ch_side c) (ch_spec c)) <= 2 ^ 33 ->
  exists b', add_suffix true c b = Ok (b', 0%Z) /\ lrep b' (d ++ suffix (ch_side c) (ch_spec c)) /\
    bmode b' = bmode b /\ binit b' = binit b.
Proof.
  intros R G M L1 L2. unfold add_suffix. unfold suffix, rx_lane in *.
  destruct (l_suffix _) as [x|].
  - destruct (add_grows b d x R G M L1 L2) as [b' [m [p [E [R2 [M2 [I2 _]]]]]]]. rewrite E. cbn [obind]. eauto 10.
  - exists b. rewrite app_nil_r. auto.
Qed.

(* What remains to be received, and the state of the receive buffer in the middle of it. *)
Definition wires (w : wtype) (l : list sentmsg) : list sbyte := flat_map (on_wire w) l.
Definition small (m : sentmsg) : Prop := 4 + len (payload m) < 2 ^ 32.

Definition rxinv (w : wtype) (i : bufinit) (todo : list sentmsg) (b : lbuf) (s : list sbyte) : Prop :=
  binit b = i /\ bmark b = None /\
  match todo with
  | [] => fresh PREFIX i b /\ allocated b = 4 + isize i /\ s = []
  | m :: t =>
      dinv (payload m) (map fst (ext_part w m ++ wires w t)) b (map fst s) /\
      exact_alloc b (4 + len (payload m)) /\ bused b < 4 + len (payload m) /\
      s = skipn (N.to_nat (bused b)) (wires w todo)
  end.

Lemma payload_len m : 4 <= len (payload m).
Proof. destruct m as [d|]; cbn [payload]; rewrite ?len_app, ?cmd_bytes_len; lia. Qed.

Lemma fst_plain d : map fst (plain d) = d.
Proof. unfold plain. rewrite map_map. cbn. apply map_id. Qed.

Lemma len_on_wire w m : length (on_wire w m) = (4 + length (payload m) + length (ext_part w m))%nat.
Proof. unfold on_wire, plain. rewrite app_length, map_length, message_len. auto. Qed.

Lemma rx_idle w i todo b : snug i -> Forall small todo -> fresh PREFIX i b -> allocated b = 4 + isize i ->
  rxinv w i todo b (wires w todo).
Proof.
  intros G F FR AL. pose proof FR as [M [BI [U [MK _]]]]. split; auto. split; auto.
  destruct todo as [|m t]; [auto|]. inversion F as [|? ? F1 F2]; subst x l.
  destruct (fresh_dinv i b (payload m) (map fst (ext_part w m ++ wires w t)) G FR AL (payload_len m) F1) as [D X].
  assert (Q : map fst (wires w (m :: t)) = message (payload m) ++ map fst (ext_part w m ++ wires w t)).
  { unfold wires at 1. cbn [flat_map]. unfold on_wire at 1. rewrite <- app_assoc, map_app, fst_plain. reflexivity. }
  rewrite Q. split; auto. split; auto. rewrite U. split; [pose proof (payload_len m); lia|reflexivity].
Qed.

Lemma rx_more w i todo b s x : snug i -> Forall small (todo ++ [x]) -> rxinv w i todo b s -> rxinv w i (todo ++ [x]) b (s ++ on_wire w x).
Proof.
  intros G F [BI [MK R]]. destruct todo as [|m t].
  - destruct R as [FR [AL ->]]. cbn [app] in *. replace (on_wire w x) with (wires w [x]) by (unfold wires; cbn [flat_map]; apply app_nil_r).
    apply rx_idle; auto.
  - destruct R as [D [X [U S]]]. cbn [app]. split; auto. split; auto.
    assert (W : wires w (t ++ [x]) = wires w t ++ on_wire w x).
    { unfold wires. rewrite flat_map_app. cbn [flat_map]. rewrite app_nil_r. auto. }
    split. { rewrite W, app_assoc, map_app, (map_app fst s). apply dinv_more; auto. }
    split; auto. split; auto. subst s. change (wires w (m :: t ++ [x])) with (on_wire w m ++ wires w (t ++ [x])).
    rewrite W, app_assoc. change (on_wire w m ++ wires w t) with (wires w (m :: t)).
    rewrite skipn_app. f_equal. symmetry.
    replace (N.to_nat (bused b) - length (wires w (m :: t)))%nat with 0%nat; [reflexivity|].
    unfold wires. cbn [flat_map]. rewrite app_length, len_on_wire. unfold len in *. clear - U. lia.
Qed.

Lemma unix_recv_calm fails closed x fd s : Forall transient fails ->
  unix_recv fails closed ((x, fd) :: s) = Some (1%Z, match fd with Some fd => fd | None => (-1)%Z end, s).
Proof.
  induction 1 as [|e t T F IH]; cbn [unix_recv]; auto. destruct T as [-> | ->]; cbn; auto.
Qed.

(* One event. *)
Lemma event_lemma e closed c b w i todo s :
  ch_rx c = Some b -> s_wire (ch_spec c) = w -> snug i -> Forall small todo -> rxinv w i todo b s ->
  len (suffix (ch_side c) (ch_spec c)) <= 2 ^ 33 -> calm (LEvent e) ->
  exists b' s' acts gone todo', chan_event e closed c s = Ok (with_rx c b', Some 0%Z, s', acts, gone) /\
    rxinv w i todo' b' s' /\
    ((acts = [] /\ todo' = todo) \/ (exists m, todo = m :: todo' /\ acts = [response (ch_side c) (ch_spec c) m])) /\
    (gone = true <-> (todo = [] /\ closed = true /\ give e)) /\
    (todo <> [] -> give e -> (length s' < length s)%nat) /\ (length s' <= length s)%nat.
Proof.
  intros RX W G F INV SL [K1 [K2 [K3 [K4 [K5 K6]]]]]. unfold chan_event, chan_buf_recv. rewrite K1, RX.
  unfold chan_read. rewrite K2. destruct INV as [BI [MK INV]].
  destruct todo as [|m t].
  - destruct INV as [FR [AL ->]]. pose proof FR as [M [_ [U [_ [P A]]]]]. cbn [map length Nat.sub].
    assert (RD : forall a, (a = RGive 0 \/ exists e, transient e /\ a = RErr e) ->
      sid_buf_read true a b [] = Ok (b, match a with RGive _ => 0%Z | RErr e => (- e)%Z end, [])).
    { intros a Q. unfold sid_buf_read, linear_read_prefix, linear_is_complete, expected. rewrite M, U.
      change (0 =? 0) with true. cbv iota. cbn [obind]. change (PREFIX_LEN <=? 0) with false. cbv iota. cbn [obind].
      destruct Q as [-> |[x [[-> | ->] ->]]]; reflexivity. }
    assert (KA : kernel_answer closed (ev_rd e) [] = RGive 0 \/ exists x, transient x /\ kernel_answer closed (ev_rd e) [] = RErr x).
    { unfold kernel_answer. destruct (ev_rd e) as [k|x]; [|right; eauto]. destruct closed; auto. right. exists EAGAIN. split; auto. left; auto. }
    rewrite (RD _ KA). cbn [obind]. rewrite skipn_nil.
    assert (KEEP : rxinv w i [] b []) by (split; auto).
    unfold give. unfold kernel_answer in *. destruct (ev_rd e) as [k|x].
    + destruct closed.
      * change (0 <? 0)%Z with false. cbv iota. rewrite M. cbn [obind]. exists b, [], [], true, []. split; auto. split; auto. split; auto.
        split; [tauto|]. split; [tauto|constructor].
      * change (0 <? - EAGAIN)%Z with false. change (- EAGAIN <? 0)%Z with true. change (- EAGAIN =? - EAGAIN)%Z with true. cbn [orb]. cbv iota. cbn [obind].
        exists b, [], [], false, []. split; auto. split; auto. split; auto. split; [split; [discriminate|intros [_ [X _]]; discriminate]|]. split; [tauto|constructor].
    + exists b, [], [], false, []. split; [destruct K6 as [-> | ->]; reflexivity|]. split; auto. split; auto.
      split; [split; [discriminate|tauto]|]. split; [tauto|constructor].
  - destruct INV as [D [X [UB0 S]]]. inversion F as [|? ? F1 F2]; subst x l.
    pose proof D as [RI _].
    assert (SN : s <> []).
    { rewrite S. intro Q. apply (f_equal (@length _)) in Q. rewrite skipn_length in Q. unfold wires in Q. cbn [flat_map] in Q.
      rewrite app_length, len_on_wire in Q. cbn [length] in Q. unfold len in UB0. clear - Q UB0. lia. }
    set (a := kernel_answer closed (ev_rd e) s).
    assert (KA : match a with RGive k => k <> 0 | RErr e => (0 < e)%Z end).
    { unfold a, kernel_answer. destruct (ev_rd e) as [k|x].
      - destruct s; [contradiction|]. lia.
      - destruct K6 as [-> | ->]; reflexivity. }
    destruct (deliver_step _ _ a b (map fst s) F1 D KA) as [b1 [n [s1 [E1 [D1 [X1 [I1 [_ P1]]]]]]]].
    specialize (X1 X). specialize (P1 UB0). rewrite E1. cbn [obind].
    pose proof D1 as [RI1 _].
    assert (MK1 : bmark b1 = None).
    { clear - E1 MK RI. destruct RI as [j [_ [_ [_ [M _]]]]]. unfold sid_buf_read in E1. rewrite M in E1. unfold linear_read_prefix in E1.
      destruct (linear_is_complete b) as [cp|]; [|discriminate]. cbn [obind] in E1. destruct cp; [injection E1 as <- _ _; auto|].
      destruct (sys_read a (map fst s) _) as [[n0 d0] s0]. destruct (0 <? n0)%Z.
      - destruct (store _ _ _) as [mm|]; [|discriminate]. cbn [obind] in E1.
        destruct (expected _) as [ee|]; [|discriminate]. cbn [obind] in E1.
        destruct (ee =? 0); [injection E1 as <- _ _; auto|]. destruct (ee <? PREFIX_LEN); [injection E1 as <- _ _; auto|].
        destruct (bused b <? PREFIX_LEN); [|injection E1 as <- _ _; auto].
        destruct (linear_realloc true _ ee false) as [b2 r2] eqn:RR. injection E1 as <- _ _.
        unfold linear_realloc in RR. destruct (realloc_size _ _ _ _); [|injection RR as <- _; auto].
        destruct (granted true n1); injection RR as <- _; auto.
      - destruct (n0 =? 0)%Z; [|injection E1 as <- _ _; auto].
        destruct (expected b) as [ee|]; [|discriminate]. cbn [obind] in E1. destruct (_ || _); injection E1 as <- _ _; auto. }
    (* the stream *)
    assert (MW : map fst (wires w (m :: t)) = message (payload m) ++ map fst (ext_part w m ++ wires w t)).
    { unfold wires at 1. cbn [flat_map]. unfold on_wire at 1. rewrite <- app_assoc, map_app, fst_plain. reflexivity. }
    assert (S1 : skipn (length s - length s1) s = skipn (N.to_nat (bused b1)) (wires w (m :: t))).
    { destruct RI as [j [Q1 [Q2 [Q3 _]]]]. destruct RI1 as [j1 [T1 [T2 [T3 _]]]].
      rewrite <- MW in *. rewrite map_length in Q2, T2.
      assert (LS1 : length s1 = (length (wires w (m :: t)) - j1)%nat) by (rewrite T1, skipn_length, map_length; auto).
      assert (JJ : (j <= j1)%nat).
      { destruct a; [destruct P1 as [P1 P2]; clear - P1 P2 Q3 T3; lia|]. destruct P1 as [_ ->]. clear - Q3 T3; lia. }
      rewrite LS1, S, skipn_length, Q3, T3, !Nat2N.id, skipn_add. f_equal. clear - Q2 T2 JJ. unfold sbyte in *. lia. }
    rewrite S1.
    assert (LEN : forall k, length (skipn k (wires w (m :: t))) = (length (wires w (m :: t)) - k)%nat) by (intro; apply skipn_length).
    assert (LW : length (wires w (m :: t)) = (4 + length (payload m) + length (ext_part w m) + length (wires w t))%nat).
    { unfold wires. cbn [flat_map]. rewrite app_length, len_on_wire. lia. }
    destruct a as [k|x] eqn:EA.
    2:{ (* nothing came *)
      assert (NG : ~ give e).
      { unfold give. subst a. unfold kernel_answer in EA. destruct (ev_rd e); [destruct s; [contradiction|discriminate]|auto]. }
      assert (TX : transient x).
      { unfold a, kernel_answer in EA. destruct (ev_rd e); [destruct s; [contradiction|discriminate]|]. injection EA as <-. exact K6. }
      destruct P1 as [-> ->].
      exists b, (skipn (N.to_nat (bused b)) (wires w (m :: t))), [], false, (m :: t).
      split; [destruct TX as [-> | ->]; reflexivity|]. rewrite <- S. split; [split; auto|].
      split; [auto|]. split; [split; [discriminate|intros [Q _]; discriminate]|]. split; [tauto|constructor]. }
    destruct P1 as [P1 P2].
    assert (GV : give e).
    { unfold give. unfold a, kernel_answer in EA. destruct (ev_rd e); [auto|discriminate]. }
    assert (LS : length s = (length (wires w (m :: t)) - N.to_nat (bused b))%nat) by (rewrite S; apply LEN).
    assert (UP : bused b1 <= 4 + len (payload m)) by apply D1.
    replace (0 <? n)%Z with true by (clear - P1; lia).
    assert (M1 : bmode b1 = PREFIX) by (destruct RI1 as [j [_ [_ [_ [Q _]]]]]; auto). rewrite M1.
    assert (CP : linear_is_complete b1 = Ok (bused b1 =? 4 + len (payload m))).
    { rewrite (rinv_complete _ _ _ RI1), (announced_message _ _ F1). f_equal. clear. destruct (N.eqb_spec (bused b1) (4 + len (payload m))); lia. }
    rewrite CP. cbn [obind]. destruct (N.eqb_spec (bused b1) (4 + len (payload m))) as [Q|Q]; cbn [negb].
    2:{ eexists b1, _, [], false, (m :: t). split; [reflexivity|]. split.
        - split; [congruence|]. split; auto. split; [|split; [auto|split; [clear - Q UP; lia|auto]]].
          assert (EQ : map fst (skipn (N.to_nat (bused b1)) (wires w (m :: t))) = s1).
          { destruct RI1 as [j1 [T1 [T2 [T3 _]]]]. rewrite T1, T3, Nat2N.id, <- MW. apply map_skipn'. }
          rewrite EQ. exact D1.
        - split; [auto|]. split; [split; [discriminate|intros [Z _]; discriminate]|].
          rewrite LEN, LS. unfold len in UB0. clear - P1 P2 UB0 LW. split; [intros _ _|]; lia. }
    (* complete *)
    destruct (dinv_lrep _ _ _ _ D1 Q) as [R1 [_ _]].
    assert (REST : skipn (N.to_nat (bused b1)) (wires w (m :: t)) = ext_part w m ++ wires w t).
    { rewrite Q. unfold wires at 1. cbn [flat_map]. unfold on_wire at 1. rewrite <- app_assoc.
      apply app_skip. unfold plain. rewrite map_length, message_len. unfold len. lia. }
    rewrite REST.
    destruct (add_suffix_ok c b1 (payload m) R1) as [b2 [E2 [R2 [M2 I2]]]]; auto.
    { rewrite I1, BI. apply snug_grows; auto. }
    { unfold small in F1. clear - F1. pw. lia. }
    rewrite K3, E2. cbn [obind]. change (0 <? 0)%Z with false. cbv iota.
    destruct (linear_get_ok b2 _ 0 R2) as [b3 [r3 [d3 [E3 [R3 [M3 [I3 [_ [_ H3]]]]]]]]].
    rewrite E3. set (full := payload m ++ suffix (ch_side c) (ch_spec c)) in *.
    replace (0 <=? len full) with true in H3 by (clear; lia). destruct H3 as [-> [-> _]].
    assert (LF : 4 <= len full) by (unfold full; rewrite len_app; pose proof (payload_len m); lia).
    assert (LF2 : len full < 2 ^ 60) by (unfold full; rewrite len_app; unfold small in F1; clear - F1 SL; pw; lia).
    rewrite <- M3.
    rewrite (load_sub b3 full 0 4 R3) by (clear - LF; lia). cbn [obind].
    rewrite N.add_0_r, N.sub_0_r. rewrite sub64_le by (clear - LF LF2; pw; lia).
    assert (LD : load b3 (pfx (bmode b3) + 4) (len full - 4) = Ok (map Some (skipn 4 full))).
    { rewrite (load_sub b3 full 4 (len full - 4) R3) by (clear - LF; lia). do 2 f_equal.
      apply firstn_all2. rewrite skipn_length. unfold len in *. clear - LF. lia. }
    assert (RS : exists b4 r4, sid_buf_reset (ev_ao3 e) b3 = (b4, r4) /\ fresh PREFIX i b4 /\ allocated b4 = 4 + isize i).
    { destruct (reset_fresh PREFIX i (ev_ao3 e) b3) as [b4 [r4 [Y1 [Y2 Y3]]]]; try congruence.
      - apply snug_grows; auto.
      - pose proof (lrep_len _ _ R3) as Y. rewrite M3, M2, M1 in Y. cbn [pfx] in *. clear - Y. lia.
      - apply R3.
      - exists b4, r4. auto. }
    destruct RS as [b4 [r4 [Y1 [Y2 Y3]]]].
    assert (FIN : rxinv w i t b4 (wires w t)) by (apply rx_idle; auto).
    assert (LSH : forall y : list sbyte, (length y <= length (ext_part w m ++ wires w t))%nat -> (length y < length s)%nat).
    { intros y Hy. rewrite app_length in Hy. rewrite LS, LW. unfold len in UB0. clear - Hy UB0. lia. }
    exists b4, (wires w t).
    assert (CLOSE : (length (wires w t) < length s)%nat) by (apply LSH; rewrite app_length; clear; lia).
    assert (COMMON : forall acts : list act, acts = [response (ch_side c) (ch_spec c) m] ->
       rxinv w i t b4 (wires w t) /\
      (acts = [] /\ t = m :: t \/ (exists m0, m :: t = m0 :: t /\ acts = [response (ch_side c) (ch_spec c) m0])) /\
      (false = true <-> m :: t = [] /\ closed = true /\ give e) /\
      (m :: t <> [] -> give e -> (length (wires w t) < length s)%nat) /\ (length (wires w t) <= length s)%nat).
    { intros acts HA. split; [exact FIN|]. split; [right; exists m; auto|]. split; [split; [discriminate|intros [Z _]; discriminate]|].
      split; [auto|clear - CLOSE; lia]. }
    exists [response (ch_side c) (ch_spec c) m], false, t. split; [|apply COMMON; auto].
    unfold response, full in *. destruct m as [[dd ex]|]; cbn [payload d_data d_ext ext_part] in *.
    + destruct ex as [fd|].
      * change (firstn (N.to_nat 4) (skipn (N.to_nat 0) ((cmd_bytes CMD_DATA_EXT ++ dd) ++ suffix (ch_side c) (ch_spec c))))
          with (cmd_bytes CMD_DATA_EXT).
        change (map Some (cmd_bytes CMD_DATA_EXT)) with [Some "003"%char; Some "000"%char; Some "000"%char; Some "000"%char].
        cbv iota. change (le32 "003" "000" "000" "000") with 3. rewrite LD. cbn [obind]. change (3 =? CMD_DATA_EXT) with true. cbv iota.
        rewrite W. destruct w; cbn [app];
          try (cbn [obind]; change ((3 =? CMD_DATA) || (3 =? CMD_DATA_EXT)) with true; cbv iota; cbn [obind ch_rx with_rx];
               rewrite Y1; reflexivity).
        rewrite (unix_recv_calm _ _ _ _ _ K5). change (1 <? 0)%Z with false. cbv iota. cbn [obind].
        change ((3 =? CMD_DATA) || (3 =? CMD_DATA_EXT)) with true. cbv iota. cbn [obind ch_rx with_rx]. rewrite Y1. cbn [fst].
        assert (FD : match (if (-1 <? fd)%Z then Some fd else None) with Some x => x | None => (-1)%Z end = Z.max (-1) fd).
        { destruct (Z.ltb_spec (-1) fd); lia. }
        rewrite FD. reflexivity.
      * change (firstn (N.to_nat 4) (skipn (N.to_nat 0) ((cmd_bytes CMD_DATA ++ dd) ++ suffix (ch_side c) (ch_spec c))))
          with (cmd_bytes CMD_DATA).
        change (map Some (cmd_bytes CMD_DATA)) with [Some "002"%char; Some "000"%char; Some "000"%char; Some "000"%char].
        cbv iota. change (le32 "002" "000" "000" "000") with 2. rewrite LD. cbn [obind]. change (2 =? CMD_DATA_EXT) with false. cbv iota.
        cbn [obind]. change ((2 =? CMD_DATA) || (2 =? CMD_DATA_EXT)) with true. cbv iota. cbn [obind ch_rx with_rx]. rewrite Y1. rewrite W.
        destruct w; reflexivity.
    + change (firstn (N.to_nat 4) (skipn (N.to_nat 0) (cmd_bytes CMD_YIELD ++ suffix (ch_side c) (ch_spec c))))
        with (cmd_bytes CMD_YIELD).
      change (map Some (cmd_bytes CMD_YIELD)) with [Some "001"%char; Some "000"%char; Some "000"%char; Some "000"%char].
      cbv iota. change (le32 "001" "000" "000" "000") with 1. rewrite LD. cbn [obind]. change (1 =? CMD_DATA_EXT) with false. cbv iota.
      cbn [obind]. change ((1 =? CMD_DATA) || (1 =? CMD_DATA_EXT)) with false. cbv iota.
      change (ch_side (with_rx c b3)) with (ch_side c). change (1 =? CMD_YIELD) with true. change (1 <? 4) with true. cbv iota.
      assert (EQ : match ch_side c with PROXY => Ok AExit | WORKER => Ok (AUnexpected 1) end =
                   Ok (match ch_side c with PROXY => AExit | WORKER => AUnexpected 1 end)) by (destruct (ch_side c); auto).
      rewrite EQ. cbn [obind ch_rx with_rx]. rewrite Y1. reflexivity.
Qed.
