(* Proofs about worker channels: sending. *)
From Verif Require Import Base Buf_Model Buf_Spec Buf_Proofs Buf_IO Wrk_Model Wrk_Spec.
Local Open Scope N_scope.

Ltac pw := change (2 ^ 64) with 18446744073709551616 in *; change (2 ^ 63) with 9223372036854775808 in *;
           change (2 ^ 62) with 4611686018427387904 in *; change (2 ^ 60) with 1152921504606846976 in *;
           change (2 ^ 33) with 8589934592 in *; change (2 ^ 32) with 4294967296 in *.

(* An init in force: no limit, and it can grow. *)
Definition grows (i : bufinit) : Prop := isize i < 2 ^ 60 /\ 0 < istep i < 2 ^ 60 /\ ilimit i = 0.

Lemma grows_sizes i : grows i -> init_sizes i.
Proof. intros [A [B C]]. unfold init_sizes. rewrite C. pw. lia. Qed.
Lemma grows_init_ok i : grows i -> init_ok i.
Proof. intro G. split; [apply grows_sizes; auto|]. intros _. apply G. Qed.
Lemma grows_valid i : grows i -> valid_init i.
Proof. intros [A [B C]]. left. auto. Qed.

Lemma add_grows b c d :
  lrep b c -> grows (binit b) -> bmark b = None -> len c <= 2 ^ 33 -> len d <= 2 ^ 33 ->
  exists b' m p, sid_buf_add true b (DBytes d) false = Ok (b', 0%Z, m, p) /\ lrep b' (c ++ d) /\
    bmode b' = bmode b /\ binit b' = binit b /\ bmark b' = None.
Proof.
  intros R G M LC LD. unfold sid_buf_add, buf_add_gen. rewrite M.
  destruct (linear_add_ok true b c (DBytes d) R (grows_sizes _ G)) as [b' [r [m [p [E X]]]]].
  { cbn [ad_len]. unfold len in *. pw. lia. }
  rewrite E. cbn [obind].
  assert (P : pfx (bmode b) <= 4) by (destruct (bmode b); cbn; lia).
  destruct (linear_realloc true b (pfx (bmode b) + len c + ad_len (DBytes d)) false) as [b1 r1] eqn:RR.
  assert (RZ : r1 = 0%Z).
  { pose proof G as [G1 [G2 G3]]. cbn [ad_len] in RR. fold (len d) in RR.
    apply (realloc_ok_iff _ _ _ _ _) in RR; [|clear - LC LD G2 P; pw; lia|apply grows_valid; auto].
    apply RR. right. split; [clear - G2; lia|]. split; [auto|]. split; [auto|].
    pose proof (roundup_bounds (pfx (bmode b) + len c + len d) (istep (binit b)) ltac:(clear - G2; lia)).
    clear - H LC LD G2 P. pw. lia. }
  cbn [snd fst] in X. subst r1.
  destruct X as [[-> [X1 [_ [X2 [X3 [X4 _]]]]]]|[X1 [_ X2]]]; [|lia].
  change (0 <? 0)%Z with false. cbv iota. eexists _, _, _. split; [reflexivity|]. cbn [ad_bytes] in X1.
  repeat split; auto; try apply X1. congruence.
Qed.

(* Writing leaves everything but the prefix alone. *)
Lemma store_length m pos d m' : store m pos d = Ok m' -> length m' = length m.
Proof.
  unfold store. destruct (N.leb_spec (pos + N.of_nat (length d)) (N.of_nat (length m))); [|discriminate].
  intro E. injection E as <-. rewrite !app_length, firstn_length, skipn_length. lia.
Qed.

Definition same_shape (b' b : lbuf) : Prop :=
  bmode b' = bmode b /\ binit b' = binit b /\ bused b' = bused b /\ bmark b' = bmark b /\ allocated b' = allocated b.
Lemma same_shape_refl b : same_shape b b.
Proof. repeat split. Qed.
Lemma same_shape_trans a b c : same_shape a b -> same_shape b c -> same_shape a c.
Proof. intros [? [? [? [? ?]]]] [? [? [? [? ?]]]]. repeat split; congruence. Qed.

Lemma linear_write_keeps a b pos b' n out : linear_write a b pos = Ok (b', n, out) -> same_shape b' b.
Proof.
  unfold linear_write. destruct (pos =? bused b); [intro E; injection E as <- _ _; apply same_shape_refl|].
  destruct (bused b <? pos); [intro E; injection E as <- _ _; apply same_shape_refl|].
  destruct (bmode b) eqn:M.
  - cbn [obind]. destruct (load b pos _) as [l|]; [|discriminate]. cbn [obind]. destruct (all_some l) as [x|]; [|discriminate].
    destruct (sys_write a x). intro E; injection E as <- _ _. apply same_shape_refl.
  - unfold linear_update_prefix. destruct (store (bmem b) 0 _) as [m|] eqn:ST; [|discriminate]. cbn [obind].
    destruct (load _ pos _) as [l|]; [|discriminate]. cbn [obind]. destruct (all_some l) as [x|]; [|discriminate].
    destruct (sys_write a x). intro E; injection E as <- _ _. apply store_length in ST.
    unfold same_shape, allocated, with_mem. cbn. rewrite ST. auto.
Qed.

Lemma write_all_keeps ans : forall b pos b' r out, write_all lbuf linear_write ans b pos = Ok (b', r, out) -> same_shape b' b.
Proof.
  induction ans as [|a ans IH]; intros b pos b' r out E; cbn [write_all] in E.
  - destruct (linear_write _ b pos) as [[[b1 n] o]|] eqn:W; [|discriminate]. cbn [obind] in E.
    apply linear_write_keeps in W. destruct (n =? - ENODATA)%Z; [injection E as <- _ _; auto|].
    destruct (n =? - EAGAIN)%Z; injection E as <- _ _; auto.
  - destruct (linear_write a b pos) as [[[b1 n] o]|] eqn:W; [|discriminate]. cbn [obind] in E.
    apply linear_write_keeps in W. destruct (n <? 0)%Z.
    + destruct (n =? - ENODATA)%Z; [injection E as <- _ _; auto|].
      destruct ((n =? - EAGAIN)%Z || (n =? - EINTR)%Z); [|injection E as <- _ _; auto].
      apply IH in E. eapply same_shape_trans; eauto.
    + destruct (write_all _ _ ans b1 _) as [[[b2 r2] o2]|] eqn:W2; [|discriminate]. cbn [obind] in E.
      injection E as <- _ _. apply IH in W2. eapply same_shape_trans; eauto.
Qed.

(* A buffer of mode [m] with init [i] that holds nothing. *)
Definition fresh (m : bufmode) (i : bufinit) (b : lbuf) : Prop :=
  bmode b = m /\ binit b = i /\ bused b = 0 /\ bmark b = None /\ pfx m <= allocated b /\ allocated b < 2 ^ 63.

Lemma fresh_lrep m i b : fresh m i b -> lrep b [].
Proof. intros [A [B [C [D [E F]]]]]. apply (lrep_reset b); auto. rewrite A. auto. Qed.

Lemma create_fresh m i ao b : grows i -> linear_create ao m i = Ok (inl b) -> fresh m i b /\ allocated b = pfx m + isize i.
Proof.
  intros G E. destruct (create_inv _ _ _ _ (grows_init_ok _ G) E) as [[V [M _]] [K [BI [U _]]]].
  assert (A : allocated b = pfx m + isize i).
  { unfold linear_create in E. destruct (check_buf i) as [v|]; [|discriminate]. cbn [obind] in E.
    destruct v; [|discriminate]. cbn [negb] in E.
    destruct (linear_realloc _ _ _ _) as [b1 r] eqn:RR. apply realloc_force in RR; [|unfold allocated; cbn; pw; lia].
    rewrite linear_needed_ok in RR by (apply grows_sizes; auto).
    destruct RR as [[-> [R1 _]]|[R1 [_ _]]].
    - cbn in E. injection E as <-. auto.
    - replace (r <? 0)%Z with true in E by lia. discriminate. }
  split; auto. pose proof (proj2 (proj2 V)). repeat split; auto. lia.
Qed.

Lemma reset_fresh m i ao b : bmode b = m -> binit b = i -> grows i -> pfx m <= allocated b -> allocated b < 2 ^ 63 ->
  exists b' r, sid_buf_reset ao b = (b', r) /\ fresh m i b' /\ (ao = true -> allocated b' = pfx m + isize i).
Proof.
  intros M I G P A. unfold sid_buf_reset, linear_reset.
  destruct (linear_realloc ao (with_used (with_mark b None) 0) _ true) as [b' r] eqn:E. exists b', r. split; auto.
  cbn [with_mark bmode binit] in E. rewrite M, I in E. rewrite linear_needed_ok in E by (apply grows_sizes; auto).
  assert (X : ao = true -> r = 0%Z).
  { intros ->. unfold linear_realloc, realloc_size in E. cbn [negb andb] in E. change (1 =? 0) with false in E.
    cbv iota zeta in E. rewrite N.mod_1_r in E. change (0 =? 0) with true in E. cbv iota in E.
    cbn [with_used with_mark binit] in E. destruct G as [G1 [G2 G3]]. rewrite I, G3 in E. cbn [N.eqb negb andb] in E.
    unfold granted in E. replace ((pfx m + isize i =? 0) || (true && (pfx m + isize i <? 2 ^ 63))) with true in E.
    - injection E as _ <-. auto.
    - symmetry. apply orb_true_iff. right. cbn [andb]. apply N.ltb_lt. destruct m; cbn [pfx]; clear - G1; pw; lia. }
  apply realloc_force in E; [|exact A]. cbn [with_used with_mark bmode binit bused bmark] in E.
  destruct E as [[_ [E1 [E2 [E3 [E4 [E5 [E6 _]]]]]]]|[E1 [_ ->]]].
  - split; [|auto]. repeat split; auto; try congruence. lia.
  - split; [repeat split; auto|]. intro Y. apply X in Y. lia.
Qed.

(* What a message looks like on the wire. *)
Definition payload (m : sentmsg) : bytes :=
  match m with
  | SData d => cmd_bytes (match d_ext d with Some _ => CMD_DATA_EXT | None => CMD_DATA end) ++ d_data d
  | SYield => cmd_bytes CMD_YIELD
  end.
Definition ext_part (w : wtype) (m : sentmsg) : list sbyte :=
  match m, w with
  | SData d, WIRE_SOCKET => match d_ext d with Some fd => [("255"%char, if (-1 <? fd)%Z then Some fd else None)] | None => [] end
  | _, _ => []
  end.
Definition on_wire (w : wtype) (m : sentmsg) : list sbyte := plain (message (payload m)) ++ ext_part w m.

Lemma write_all_calm ans b c :
  lrep b c -> bmode b = PREFIX -> c <> [] -> 4 + len c < 2 ^ 32 -> Forall wcalm ans -> 4 + len c <= takes ans ->
  exists b', write_all lbuf linear_write ans b 0 = Ok (b', Some 0%Z, message c) /\ same_shape b' b.
Proof.
  intros R M NE L F T.
  assert (LW : linear_wire b c = message c).
  { unfold linear_wire, wire. rewrite M. destruct (N.eqb_spec (bused b) 0) as [Z|Z].
    - destruct R as [_ [[U|[U X]] _]]; [rewrite M in U; cbn [pfx] in U; lia|contradiction].
    - unfold message. f_equal. f_equal. unfold wrap32. apply N.mod_small. auto. }
  assert (LB : len (message c) = bused b) by (rewrite <- LW; apply linear_wire_len; auto).
  destruct (write_all_gen lbuf linear_write (fun _ x => lrep x c /\ bused x = bused b /\ bmode x = PREFIX) (message c))
    with (ans := ans) (b := b) (pos := 0) as [b2 [r [out [E2 S2]]]].
  - intros a x pos [X1 [X2 X3]] LP. pose proof (linear_write_step a x c pos X1 ltac:(lia)) as Y.
    assert (LX : linear_wire x c = message c) by (rewrite <- LW; unfold linear_wire; rewrite X2, X3, M; auto).
    rewrite LX, X2, <- LB in Y. destruct (pos =? len (message c)).
    + destruct Y as [x' [Y1 [Y2 [Y3 Y4]]]]. exists x'. split; auto. split; auto. split; [lia|congruence].
    + destruct Y as [x' [Y1 [Y2 [Y3 Y4]]]]. exists x'. split; auto. intros q _. split; auto. split; [lia|congruence].
  - auto.
  - lia.
  - eapply Forall_impl; [|exact F]. intros [k|e]; cbn; auto. intros [-> | ->]; split; try discriminate; reflexivity.
  - rewrite E2. cbn [N.to_nat skipn] in S2. destruct S2 as [rest [W S2]]. destruct r as [z|].
    + destruct (Z.eqb_spec z 0) as [-> |NZ].
      * subst rest. rewrite app_nil_r in W. subst out. exists b2. split; auto. eapply write_all_keeps; eauto.
      * destruct S2 as [e [-> [S3 [S4 S5]]]]. rewrite Forall_forall in F. specialize (F _ S3). cbn in F.
        destruct F; contradiction.
    + destruct S2 as [_ S2]. exfalso. unfold len in LB, S2, T. rewrite message_len in S2. clear - S2 T. unfold len in *. lia.
Qed.

Lemma unix_send_calm fails fd : Forall transient fails ->
  unix_send fails fd = (0%Z, [("255"%char, if (-1 <? fd)%Z then Some fd else None)]).
Proof.
  induction 1 as [|e t T F IH]; cbn [unix_send]; auto.
  destruct T as [-> | ->]; cbn; auto.
Qed.

Lemma cmd_bytes_len c : len (cmd_bytes c) = 4.
Proof. reflexivity. Qed.

(* Sending [m] over the channel; [c] is its sending end. *)
Lemma send_lemma a c cmd d b i :
  ch_tx c = Some b -> fresh PREFIX i b -> grows i ->
  let data := match d with Some d => d_data d | None => [] end in
  8 + len data < 2 ^ 32 -> send_calm a (8 + len data) ->
  exists b', chan_buf_send a c cmd d =
    Ok (with_tx c b', Some 0%Z,
        plain (message (cmd_bytes cmd ++ data)) ++
        match d, s_wire (ch_spec c) with
        | Some d, WIRE_SOCKET => match d_ext d with Some fd => [("255"%char, if (-1 <? fd)%Z then Some fd else None)] | None => [] end
        | _, _ => []
        end) /\ fresh PREFIX i b'.
Proof.
  intros C FR G data L [K1 [K2 [K3 [K4 K5]]]]. unfold chan_buf_send. rewrite C. pose proof FR as [M [BI [U [MK [P A]]]]].
  rewrite M. fold data. rewrite K1, K2.
  assert (LD : len data <= 2 ^ 33) by (clear - L; pw; lia).
  destruct (add_grows b [] (cmd_bytes cmd) (fresh_lrep _ _ _ FR)) as [b1 [m1 [p1 [E1 [R1 [M1 [I1 MK1]]]]]]];
    [rewrite BI; auto|auto|discriminate|discriminate|].
  rewrite E1. cbn [obind]. change (0 <? 0)%Z with false. cbv iota. cbn [app] in R1.
  assert (S2 : exists b2 m2 p2, (if (length data =? 0)%nat then Ok (b1, 0%Z, None, 0) else sid_buf_add true b1 (DBytes data) false) = Ok (b2, 0%Z, m2, p2) /\
    lrep b2 (cmd_bytes cmd ++ data) /\ bmode b2 = PREFIX /\ binit b2 = i).
  { destruct (Nat.eqb_spec (length data) 0) as [Z|Z].
    - apply length_zero_iff_nil in Z. rewrite Z, app_nil_r. eexists _, _, _. split; [reflexivity|]. split; auto. split; congruence.
    - destruct (add_grows b1 (cmd_bytes cmd) data R1) as [b2 [m2 [p2 [E2 [R2 [M2 [I2 MK2]]]]]]];
        [rewrite I1, BI; auto|auto|rewrite cmd_bytes_len; discriminate|auto|].
      exists b2, m2, p2. split; auto. split; auto. split; congruence. }
  destruct S2 as [b2 [m2 [p2 [E2 [R2 [M2 I2]]]]]]. rewrite E2. cbn [obind]. change (0 <? 0)%Z with false. cbv iota.
  destruct (write_all_calm (sa_wr a) b2 (cmd_bytes cmd ++ data)) as [b3 [E3 [S1 [S2 [S3 [S4 S5]]]]]]; auto.
  { discriminate. }
  { rewrite len_app, cmd_bytes_len. clear - L; lia. }
  { rewrite len_app, cmd_bytes_len. clear - K4; lia. }
  rewrite E3. cbn [obind]. change (0 <? 0)%Z with false. cbv iota.
  assert (RS : exists b' r, sid_buf_reset (sa_ao3 a) b3 = (b', r) /\ fresh PREFIX i b').
  { destruct (reset_fresh PREFIX i (sa_ao3 a) b3) as [b' [r [X1 [X2 _]]]]; try congruence.
    - rewrite S5. pose proof (lrep_len _ _ R2) as X. rewrite M2 in X. cbn [pfx] in *. clear - X. lia.
    - rewrite S5. apply R2.
    - eauto. }
  destruct RS as [b' [r [X1 X2]]]. exists b'. split; auto. rewrite X1.
  destruct d as [d|]; [|rewrite app_nil_r; destruct (s_wire (ch_spec c)); reflexivity].
  destruct (d_ext d) as [fd|]; [|rewrite ?app_nil_r; destruct (s_wire (ch_spec c)); rewrite ?app_nil_r; reflexivity].
  destruct (s_wire (ch_spec c)); rewrite ?app_nil_r; try reflexivity.
  rewrite (unix_send_calm _ fd K5). reflexivity.
Qed.
