(* Vector buffers. *)
From Verif Require Import Base Buf_Model Buf_Spec Buf_Proofs Buf_IO.
Local Open Scope N_scope.
Local Opaque N.pow.

Definition vp (m : bufmode) : N := match m with PLAIN => 0 | PREFIX => 1 end.
Definition hdr_ok (m : bufmode) (h : list iovec) : Prop :=
  match m with PLAIN => h = [] | PREFIX => exists p, h = [IData p] /\ length p = 4%nat end.

Definition vrep (b : vbuf) (c : list bytes) : Prop :=
  (exists h t, hdr_ok (vmode b) h /\ vitems b = h ++ map IData c ++ t) /\
  (vused b = vp (vmode b) + N.of_nat (length c) \/ (vused b = 0 /\ c = [])) /\
  vallocated b < 2 ^ 59.

Lemma hdr_len m h : hdr_ok m h -> N.of_nat (length h) = vp m.
Proof. destruct m; cbn; [intros ->; auto|intros [p [-> _]]; auto]. Qed.

Lemma vrep_len b c : vrep b c -> vp (vmode b) + N.of_nat (length c) <= vallocated b.
Proof.
  intros [[h [t [H1 H2]]] _]. pose proof (hdr_len _ _ H1). unfold vallocated. rewrite H2, !app_length, map_length. lia.
Qed.

Lemma vrep_count b c : vrep b c -> vector_count b = N.of_nat (length c).
Proof.
  intros [_ [U _]]. unfold vector_count. destruct (vmode b); cbn [vp] in U; destruct U as [U|[U ->]]; rewrite ?U; try reflexivity; try lia.
  destruct (N.eqb_spec (1 + N.of_nat (length c)) 0); lia.
Qed.

Ltac pv := pw; change (2 ^ 58) with 288230376151711744 in *; change (2 ^ 59) with 576460752303423488 in *;
           unfold ITEM in *.

Definition vinv (m : bufmode) (b : vbuf) (c : list bytes) : Prop :=
  vrep b c /\ vmode b = m /\ vinit_ok (vinit b).

Lemma vinv_intro m b c : vrep b c -> vmode b = m -> vinit_ok (vinit b) -> vinv m b c.
Proof. intros; split; [|split]; auto. Qed.

Lemma vrealloc_grow ao b needed :
  needed <= 2 ^ 59 -> vinit_ok (vinit b) -> vallocated b < 2 ^ 59 ->
  exists b' r, vector_realloc ao b needed false = Ok (b', r) /\
  ((r = 0%Z /\ needed <= vallocated b' /\ vallocated b' < 2 ^ 59 /\ (exists k, vitems b' = vitems b ++ repeat IUninit k) /\
    vmode b' = vmode b /\ vinit b' = vinit b /\ vused b' = vused b /\ vmark b' = vmark b) \/
   ((r < 0)%Z /\ b' = b)).
Proof.
  intros H [I1 [I2 [I3 I4]]] A. unfold vector_realloc. rewrite realloc_size_false by (pv; lia).
  destruct (N.leb_spec needed (vallocated b)) as [L|L].
  { eexists _, _. split; [reflexivity|]. left. repeat split; auto. exists 0%nat. cbn. rewrite app_nil_r. auto. }
  destruct (N.eqb_spec (istep (vinit b)) 0) as [Z|Z]; [eexists _, _; split; [reflexivity|]; right; split; auto; reflexivity|].
  cbv zeta. set (n := istep (vinit b) * ((needed + istep (vinit b) - 1) / istep (vinit b))).
  pose proof (roundup_bounds needed (istep (vinit b)) Z) as [L1 U1]. fold n in L1, U1.
  destruct (negb (ilimit (vinit b) =? 0) && (ilimit (vinit b) <? n));
    [eexists _, _; split; [reflexivity|]; right; split; auto; reflexivity|].
  destruct (N.leb_spec (2 ^ 64) (n * ITEM)); [pv; lia|].
  unfold granted. destruct (N.eqb_spec (n * ITEM) 0); [pv; lia|].
  cbn [orb]. destruct (ao && (n * ITEM <? 2 ^ 63)) eqn:G.
  - eexists _, _. split; [reflexivity|]. left. unfold vwith_items, vallocated in *; cbn [vitems vmode vinit vused vmark].
    rewrite app_length, firstn_length, repeat_length.
    repeat split; auto; try (pv; lia).
    exists (N.to_nat n - length (vitems b))%nat. rewrite firstn_all2 by lia. auto.
  - eexists _, _. split; [reflexivity|]. right. split; auto. reflexivity.
Qed.

Lemma vrealloc_force ao b needed :
  needed <= 2 ^ 58 -> vallocated b < 2 ^ 59 ->
  exists b' r, vector_realloc ao b needed true = Ok (b', r) /\
  ((r = 0%Z /\ vallocated b' = needed /\
    vitems b' = firstn (N.to_nat needed) (vitems b) ++ repeat IUninit (N.to_nat needed - length (vitems b)) /\
    vmode b' = vmode b /\ vinit b' = vinit b /\ vused b' = vused b /\ vmark b' = vmark b) \/
   ((r < 0)%Z /\ b' = b)).
Proof.
  unfold vector_realloc, realloc_size. cbn [negb andb]. intros H A.
  change (1 =? 0) with false. cbv iota zeta. rewrite N.mod_1_r. change (0 =? 0) with true. cbv iota.
  destruct (negb (ilimit (vinit b) =? 0) && (ilimit (vinit b) <? needed)) eqn:G;
    [eexists _, _; split; [reflexivity|]; right; split; auto; reflexivity|].
  destruct (N.leb_spec (2 ^ 64) (needed * ITEM)); [pv; lia|].
  destruct (granted ao (needed * ITEM)).
  - eexists _, _. split; [reflexivity|]. left. unfold vwith_items, vallocated in *; cbn [vitems vmode vinit vused vmark].
    rewrite app_length, firstn_length, repeat_length. repeat split; auto; lia.
  - eexists _, _. split; [reflexivity|]. right. split; auto. reflexivity.
Qed.

Lemma list_set_app {A} (l1 l2 : list A) x y : list_set (l1 ++ x :: l2) (length l1) y = l1 ++ y :: l2.
Proof. induction l1 as [|a l1 IH]; cbn; auto. rewrite IH. auto. Qed.

Lemma vec_step_ok m b c o : vinv m b c -> vop_ok m o ->
  exists b' r c', vec_step b o = Ok (b', r) /\ vinv m b' c' /\ vec_spec c o r c'.
Proof.
  intros [R [M I]] O. pose proof (vrep_len _ _ R) as LL. pose proof (proj2 (proj2 R)) as A.
  destruct o as [ao d w|pos w rew|ao|pos]; cbn [vec_step vop_ok vec_spec] in *.
  - destruct d as [d|n]; [|contradiction]. unfold vector_add.
    destruct (vmark b) as [mp|] eqn:MK.
    { eexists _, _, c. split; [reflexivity|]. split; [apply vinv_intro; auto|]. right. cbn. split; auto. reflexivity. }
    set (used := match vmode b with PLAIN => vused b | PREFIX => if vused b =? 0 then 1 else vused b end).
    assert (US : used = vp m + N.of_nat (length c)).
    { unfold used. destruct R as [_ [U _]]. rewrite M in *. destruct m; cbn [vp] in *; destruct U as [U|[U ->]]; rewrite U; cbn [length]; try lia.
      - destruct (N.eqb_spec (1 + N.of_nat (length c)) 0); lia.
      - reflexivity. }
    cbn [vd_count]. rewrite M in LL. rewrite wrap64_small by (pv; lia).
    destruct (vrealloc_grow ao b (used + 1)) as [b1 [r [E G]]]; [pv; lia|auto|auto|].
    rewrite E. cbn [obind]. destruct G as [[-> [G1 [G2 [[k G3] [G4 [G5 [G6 G7]]]]]]]|[G1 ->]].
    2:{ replace (r <? 0)%Z with true by lia. cbn [obind]. eexists _, _, c. split; [reflexivity|].
        split; [apply vinv_intro; auto|]. right. cbn. auto. }
    change (0 <? 0)%Z with false. cbv iota. destruct (N.eqb_spec (vallocated b1) 0); [lia|].
    replace (used <? vallocated b1) with true by lia. cbn [obind].
    rewrite (vrep_count _ _ R).
    assert (X : exists h t, hdr_ok m h /\ list_set (vitems b1) (N.to_nat used) (IData d) = h ++ map IData (c ++ [d]) ++ t).
    { destruct R as [[h [t [H1 H2]]] _]. rewrite M in H1. pose proof (hdr_len _ _ H1) as HL.
      unfold vallocated in *. rewrite G3, H2, <- !app_assoc in *. rewrite !app_length, map_length in G1.
      destruct (t ++ repeat IUninit k) as [|x t'] eqn:TT; [rewrite <- app_length, TT in G1; cbn in G1; lia|].
      exists h, t'. split; auto. replace (N.to_nat used) with (length (h ++ map IData c)) by (rewrite app_length, map_length; lia).
      rewrite app_assoc, list_set_app, map_app, <- !app_assoc. reflexivity. }
    destruct X as [h [t [X1 X2]]].
    eexists _, _, (c ++ [d]). split; [reflexivity|]. split.
    2:{ left. cbn. auto. }
    set (b2 := vwith_used (vwith_items b1 (list_set (vitems b1) (N.to_nat used) (IData d))) (used + 1)).
    assert (V : vinv m b2 (c ++ [d])).
    { apply vinv_intro; [|cbn; congruence|cbn; rewrite G5; auto].
      unfold vrep, vallocated, b2; cbn [vwith_used vwith_items vmode vitems vused]. rewrite G4, M. split; [|split].
      - exists h, t. split; auto.
      - left. rewrite app_length. cbn [length]. lia.
      - rewrite list_set_length. exact G2. }
    destruct w; exact V.
  - unfold vector_release. rewrite (vrep_count _ _ R).
    destruct (N.eqb_spec (N.of_nat (length c)) 0) as [Z|Z].
    { destruct c; [|cbn in Z; lia]. eexists _, _, []. split; [reflexivity|]. split; [apply vinv_intro; auto|]. cbn [vcode vret length] in *.
      change (N.of_nat 0) with 0. destruct (N.leb_spec pos 0); destruct (N.eqb_spec pos 0); try lia; auto.
      rewrite firstn_nil. destruct rew; auto. }
    destruct (N.ltb_spec (N.of_nat (length c)) pos).
    { eexists _, _, c. split; [reflexivity|]. split; [apply vinv_intro; auto|]. replace (pos <=? N.of_nat (length c)) with false by lia. auto. }
    change (match w with ABS => pos | REL => N.of_nat (length c) - pos end) with (vabs_pos c pos w).
    cbv zeta. set (q := vabs_pos c pos w).
    assert (Q : q <= N.of_nat (length c)) by (unfold q, vabs_pos; destruct w; lia).
    set (b0 := match vmark b with Some mp => if q <=? mp then vwith_mark b None else b | None => b end).
    assert (X : vmode b0 = vmode b /\ vinit b0 = vinit b /\ vitems b0 = vitems b /\ vused b0 = vused b).
    { unfold b0. destruct (vmark b); auto. destruct (q <=? n); auto. }
    destruct X as [X1 [X2 [X3 X4]]].
    assert (R0 : vrep b0 c) by (unfold vrep, vallocated in *; rewrite X1, X3, X4; exact R).
    eexists _, _, _. split; [reflexivity|].
    replace (pos <=? N.of_nat (length c)) with true by lia. split; [|split; [reflexivity|reflexivity]].
    destruct rew; [|apply vinv_intro; auto; congruence].
    apply vinv_intro; cbn [vwith_used vmode vinit]; [|congruence|congruence].
    destruct R as [[h [t [H1 H2]]] _]. unfold vrep, vallocated in *; cbn [vwith_used vmode vitems vused].
    rewrite X1, X3. split; [|split; auto].
    + exists h, (map IData (skipn (N.to_nat q) c) ++ t). split; auto.
      rewrite H2. rewrite (app_assoc (map IData _) (map IData _) t), <- map_app, firstn_skipn. auto.
    + left. rewrite firstn_length. destruct (vmode b); cbn [vp] in *; lia.
  - unfold vector_reset.
    assert (VN : vector_needed (vmode b) (vinit b) = vp m + isize (vinit b) ).
    { rewrite M. destruct I as [I1 _]. destruct m; cbn [vector_needed vp]; [lia|]. rewrite wrap64_small by (pv; lia). lia. }
    rewrite VN. destruct I as [I1 I2].
    destruct (vrealloc_force ao (vwith_used (vwith_mark b None) 0) (vp m + isize (vinit b))) as [b1 [r [E G]]];
      [destruct m; cbn [vp]; pv; lia|exact A|].
    rewrite E. cbn [obind]. eexists _, _, []. split; [reflexivity|].
    destruct G as [[-> [G1 [G2 [G3 [G4 [G5 G6]]]]]]|[G1 ->]]; cbn [vwith_used vwith_mark vmode vinit vused vitems] in *.
    + split; [|cbn; split; auto; lia]. apply vinv_intro; [|congruence|rewrite G4; split; auto].
      split; [|split].
      * destruct R as [[h [t [H1 H2]]] _]. rewrite G2, G3. pose proof (hdr_len _ _ H1) as HL. rewrite M in HL.
        set (n := N.to_nat (vp m + isize (vinit b))). set (k := (n - length (vitems b))%nat). rewrite H2.
        exists h, (firstn (n - length h) (map IData c ++ t) ++ repeat IUninit k).
        split; auto. cbn [map app]. rewrite firstn_app, (firstn_all2 h) by lia. rewrite <- app_assoc. reflexivity.
      * right. rewrite G5. auto.
      * rewrite G1. destruct m; cbn [vp]; pv; lia.
    + split; [|cbn; split; auto; lia]. apply vinv_intro; auto; [|split; auto].
      destruct R as [[h [t [H1 H2]]] _]. unfold vrep, vallocated in *; cbn [vwith_used vwith_mark vmode vitems vused].
      split; [|split; auto]. exists h, (map IData c ++ t). split; auto.
  - unfold vector_get. rewrite (vrep_count _ _ R).
    destruct (N.ltb_spec (N.of_nat (length c)) pos).
    { eexists _, _, c. split; [reflexivity|]. split; [apply vinv_intro; auto|]. replace (pos <=? N.of_nat (length c)) with false by lia. auto. }
    replace (pos <=? N.of_nat (length c)) with true by lia. cbv zeta.
    set (b0 := if match vmark b with None => true | Some _ => pos <? 1 end then vwith_mark b (Some pos) else b).
    assert (X : vmode b0 = vmode b /\ vinit b0 = vinit b /\ vitems b0 = vitems b /\ vused b0 = vused b).
    { unfold b0. destruct (vmark b); auto. destruct (pos <? 1); auto. }
    destruct X as [X1 [X2 [X3 X4]]].
    assert (R0 : vrep b0 c) by (unfold vrep, vallocated in *; rewrite X1, X3, X4; exact R).
    rewrite X1, X4, M.
    assert (Y : exists off, match m with
        | PLAIN => ((- Z.of_N pos)%Z, sub64 (vused b) pos)
        | PREFIX => (Z.of_N (pos + 1), if vused b =? 0 then 0 else sub64 (sub64 (vused b) pos) 1)
        end = (off, N.of_nat (length c) - pos) /\ (pos < N.of_nat (length c) -> off = Z.of_N (vp m + pos))).
    { rewrite M in LL. destruct R as [_ [U _]]. rewrite M in U. destruct m; cbn [vp] in *.
      - destruct O as [O| ->]; [discriminate|]. exists 0%Z. split; [|intros _; reflexivity]. change (- Z.of_N 0)%Z with 0%Z.
        destruct U as [U|[U ->]]; rewrite U; [rewrite sub64_le by (pv; lia); f_equal; lia|reflexivity].
      - exists (Z.of_N (pos + 1)). split; [|intros _; f_equal; lia]. destruct U as [U|[U ->]]; rewrite U.
        + replace (1 + N.of_nat (length c) =? 0) with false by lia. rewrite (sub64_le _ pos) by (pv; lia).
          rewrite sub64_le by (pv; lia). f_equal; lia.
        + cbn [length] in *. f_equal. }
    destruct Y as [off [Y1 Y2]]. rewrite Y1.
    assert (W : vload b0 off (N.of_nat (length c) - pos) = Ok (map IData (skipn (N.to_nat pos) c))).
    { unfold vload. destruct (N.eqb_spec (N.of_nat (length c) - pos) 0).
      - rewrite skipn_all2 by lia. reflexivity.
      - rewrite Y2 by lia. pose proof (vrep_len _ _ R0) as L0. rewrite X1, M in L0.
        replace ((Z.of_N (vp m + pos) <? 0)%Z || _) with false by lia. f_equal.
        destruct R0 as [[h [t [H1 H2]]] _]. rewrite X1, M in H1. pose proof (hdr_len _ _ H1) as HL. rewrite H2.
        replace (Z.to_nat (Z.of_N (vp m + pos))) with (length h + N.to_nat pos)%nat by lia.
        rewrite skipn_app, skipn_all2, app_nil_l by lia.
        replace (length h + N.to_nat pos - length h)%nat with (N.to_nat pos) by lia.
        rewrite skipn_app, map_length. replace (N.to_nat pos - length c)%nat with 0%nat by lia. cbn [skipn].
        rewrite <- map_skipn'. apply app_first. rewrite map_length, skipn_length. lia. }
    rewrite W. cbn [obind]. eexists _, _, c. split; [reflexivity|]. split; [apply vinv_intro; auto; congruence|]. auto.
Qed.

Lemma vec_run_ok m ops : forall b c, vinv m b c -> Forall (vop_ok m) ops ->
  exists b' rs c', vec_run b ops = Ok (b', rs) /\ vinv m b' c' /\ vec_specs c ops rs c'.
Proof.
  induction ops as [|o ops IH]; intros b c V F.
  - exists b, [], c. split; auto. split; auto. constructor.
  - inversion F as [|? ? F1 F2]; subst.
    destruct (vec_step_ok m b c o V F1) as [b1 [r [c1 [E [V1 S1]]]]].
    destruct (IH b1 c1 V1 F2) as [b2 [rs [c2 [E2 [V2 S2]]]]].
    exists b2, (r :: rs), c2. cbn [vec_run]. rewrite E. cbn [obind]. rewrite E2. cbn [obind].
    split; auto. split; auto. econstructor; eauto.
Qed.

Lemma vcreate_inv ao m i b : vinit_ok i -> vector_create ao m i = Ok (inl b) -> vinv m b [].
Proof.
  intros I E. unfold vector_create in E. destruct (check_buf i) as [v|] eqn:C; [|discriminate]. cbn [obind] in E.
  destruct v; [|discriminate]. cbn [negb] in E.
  set (b0 := {| vmode := m; vinit := i; vitems := []; vused := 0; vmark := None |}) in *.
  assert (VN : vector_needed m i = vp m + isize i).
  { destruct I as [I1 _]. destruct m; cbn [vector_needed vp]; [lia|]. rewrite wrap64_small by (pv; lia). lia. }
  rewrite VN in E. destruct I as [I1 I2].
  destruct (vrealloc_force ao b0 (vp m + isize i)) as [b1 [r [E1 G]]];
    [destruct m; cbn [vp]; pv; lia|unfold vallocated; cbn; pv; lia|].
  rewrite E1 in E. cbn [obind] in E. destruct G as [[-> [G1 [G2 [G3 [G4 [G5 G6]]]]]]|[G1 ->]].
  - cbn in E. injection E as <-. cbn [b0 vmode vinit vused vitems vmark] in *.
    destruct m; cbn [vp] in *.
    + apply vinv_intro; auto; [|rewrite G4; split; auto].
      split; [|split]; [exists [], (vitems b1); rewrite G3; cbn; auto|right; rewrite G5; auto|rewrite G1; pv; lia].
    + apply vinv_intro; cbn [vwith_items vmode vinit]; auto; [|rewrite G4; split; auto].
      unfold vrep, vallocated in *; cbn [vwith_items vmode vitems vused]. rewrite G3, list_set_length. split; [|split; [right; rewrite G5; auto|rewrite G1; pv; lia]].
      destruct (vitems b1) as [|x t] eqn:T; [cbn [length] in G1; lia|].
      exists [IData (repeat NUL 4)], t. cbn [list_set map app]. split; auto. exists (repeat NUL 4). auto.
  - replace (r <? 0)%Z with true in E by lia. discriminate.
Qed.

Lemma vec_content_lemma : forall ao m i b ops,
  vinit_ok i -> vector_create ao m i = Ok (inl b) -> Forall (vop_ok m) ops ->
  exists b' rs c, vec_run b ops = Ok (b', rs) /\ vec_specs [] ops rs c /\ vector_count b' = N.of_nat (length c) /\
    exists b'' r, vec_step b' (VGet 0) = Ok (b'', r) /\ vret r = 0%Z /\ vrdata r = Some (map IData c).
Proof.
  intros ao m i b ops I E F. pose proof (vcreate_inv _ _ _ _ I E) as V.
  destruct (vec_run_ok m ops b [] V F) as [b' [rs [c [R [V' S]]]]].
  exists b', rs, c. split; auto. split; auto. split; [apply vrep_count; apply V'|].
  destruct (vec_step_ok m b' c (VGet 0) V') as [b2 [r [c2 [E2 [_ S2]]]]]; [right; auto|].
  cbn [vec_spec] in S2. replace (0 <=? N.of_nat (length c)) with true in S2 by lia. cbn [N.to_nat skipn] in S2.
  destruct S2 as [_ [S2 S3]]. eauto 10.
Qed.

(* ---- writing ---- *)

Definition vwire (m : bufmode) (empty : bool) (c : list bytes) : bytes := wire m empty (List.concat c).

Lemma iovs_bytes_app l1 l2 d1 d2 : iovs_bytes l1 = Some d1 -> iovs_bytes l2 = Some d2 -> iovs_bytes (l1 ++ l2) = Some (d1 ++ d2).
Proof.
  revert d1. induction l1 as [|x l1 IH]; intros d1 H1 H2; cbn in *.
  - injection H1 as <-. auto.
  - destruct (iov_bytes x) as [dx|]; [|discriminate]. destruct (iovs_bytes l1) as [dr|]; [|discriminate].
    injection H1 as <-. rewrite (IH dr eq_refl H2), app_assoc. auto.
Qed.

Lemma iovs_bytes_map c : iovs_bytes (map IData c) = Some (List.concat c).
Proof. induction c as [|x c IH]; cbn; auto. rewrite IH. auto. Qed.

(* vec_seek finds the byte position. *)
Lemma vec_seek_ok l d i off : iovs_bytes l = Some d ->
  exists s, vec_seek l i off = Ok s /\
  match s with
  | inl (k, o) => off < len d /\ (i <= k)%nat /\ exists d', iovs_bytes (skipn (k - i) l) = Some d' /\ skipn (N.to_nat o) d' = skipn (N.to_nat off) d
  | inr o => len d <= off /\ o = off - len d
  end.
Proof.
  revert d i off. induction l as [|x l IH]; intros d i off H; cbn [iovs_bytes vec_seek] in *.
  - injection H as <-. eexists. split; [reflexivity|]. cbn. unfold len; cbn. lia.
  - unfold iov_len. destruct (iov_bytes x) as [dx|] eqn:X; [|discriminate]. cbn [option_map].
    destruct (iovs_bytes l) as [dr|] eqn:L; [|discriminate]. injection H as <-. rewrite len_app. change (N.of_nat (length dx)) with (len dx).
    destruct (N.ltb_spec off (len dx)).
    + eexists. split; [reflexivity|]. cbn. split; [lia|]. split; [lia|]. exists (dx ++ dr). rewrite Nat.sub_diag. cbn [skipn iovs_bytes].
      rewrite X, L. auto.
    + destruct (IH dr (S i) (off - len dx) eq_refl) as [s [E S]]. exists s. split; auto.
      destruct s as [[k o]|o].
      * destruct S as [S1 [S2 [d' [S3 S4]]]]. split; [lia|]. split; [lia|]. exists d'.
        replace (k - i)%nat with (S (k - S i)) by lia. cbn [skipn]. split; auto. rewrite S4.
        rewrite skipn_app, (skipn_all2 dx) by (unfold len in *; lia). cbn [app]. f_equal. unfold len in *. lia.
      * destruct S. split; lia.
Qed.

(* State during write_all: at position 0 the prefix may still be stale. *)
Definition vwinv (m : bufmode) (c : list bytes) (b0 : vbuf) (pos : N) (b : vbuf) : Prop :=
  vmode b = m /\ vused b = vused b0 /\ vrep b c /\
  (pos = 0 \/ iovs_bytes (firstn (N.to_nat (vused b)) (vitems b)) = Some (vwire m (vused b =? 0) c)).

Lemma used_items b c : vrep b c -> vused b <> 0 -> exists h t, hdr_ok (vmode b) h /\ vitems b = h ++ map IData c ++ t /\
  firstn (N.to_nat (vused b)) (vitems b) = h ++ map IData c.
Proof.
  intros [[h [t [H1 H2]]] [U _]] Z. exists h, t. split; auto. split; auto. pose proof (hdr_len _ _ H1).
  destruct U as [U|[U _]]; [|lia]. rewrite H2, app_assoc. apply app_first. rewrite app_length, map_length. lia.
Qed.

Lemma vwire_len b c : vrep b c -> len (vwire (vmode b) (vused b =? 0) c) =
  (if vused b =? 0 then 0 else match vmode b with PLAIN => 0 | PREFIX => 4 end + len (List.concat c)).
Proof.
  intros _. unfold vwire, wire. destruct (vused b =? 0); [reflexivity|]. destruct (vmode b).
  - lia.
  - rewrite len_app. unfold len at 1. rewrite le32_bytes_len. lia.
Qed.

Lemma vector_write_step m c b0 a b pos :
  (* nothing at all to send although elements were added: see vec_write_all_hang *)
  (vused b0 = 0 \/ m = PREFIX \/ List.concat c <> []) ->
  vwinv m c b0 pos b -> pos <= len (vwire m (vused b0 =? 0) c) ->
  if pos =? len (vwire m (vused b0 =? 0) c)
  then exists b', vector_write a b pos = Ok (b', (- ENODATA)%Z, []) /\ vwinv m c b0 pos b'
  else exists b', vector_write a b pos =
         Ok (b', fst (sys_write a (skipn (N.to_nat pos) (vwire m (vused b0 =? 0) c))),
             snd (sys_write a (skipn (N.to_nat pos) (vwire m (vused b0 =? 0) c)))) /\
       forall q, pos <= q -> vwinv m c b0 q b'.
Proof.
  intros NE [M [U [R P]]] L. rewrite <- U in *. set (W := vwire m (vused b =? 0) c) in *.
  pose proof (vwire_len _ _ R) as LW. rewrite M in LW. fold W in LW.
  unfold vector_write.
  destruct (N.eqb_spec (vused b) 0) as [Z|Z].
  { (* nothing was ever added *)
    rewrite LW in *. assert (pos = 0) by lia. subst pos. rewrite N.eqb_refl. cbn [obind].
    eexists. split; [reflexivity|]. split; [auto|split; [auto|split; auto]]. }
  destruct (used_items _ _ R Z) as [h [t [H1 [H2 H3]]]].
  rewrite M in H1.
  assert (WN : 0 < len W).
  { rewrite LW. destruct NE as [NE|[->|NE]]; try lia. destruct m; [|lia].
    destruct (List.concat c); [congruence|unfold len; cbn [length]; lia]. }
  destruct (N.eqb_spec pos 0) as [P0|P0].
  - (* first call: refresh the prefix *)
    subst pos. replace (0 =? len W) with false by lia. cbn [obind]. rewrite M.
    assert (X : exists b', match m with PLAIN => Ok b | PREFIX => vector_update_prefix b end = Ok b' /\
       vmode b' = m /\ vused b' = vused b /\ vrep b' c /\
       iovs_bytes (firstn (N.to_nat (vused b')) (vitems b')) = Some W).
    { unfold W, vwire, wire. replace (vused b =? 0) with false by lia.
      destruct m; cbn [hdr_ok] in H1.
      - subst h. exists b. split; auto. split; auto. split; auto. split; auto. rewrite H3. cbn [app]. apply iovs_bytes_map.
      - destruct H1 as [p [-> PL]]. unfold vector_update_prefix. rewrite H3, H2. cbn [app iovs_bytes iov_bytes].
        rewrite iovs_bytes_map, PL. cbn [Nat.eqb]. eexists. split; [reflexivity|].
        cbn [vwith_items vmode vused vitems]. split; auto. split; auto.
        assert (ADD : N.of_nat (length (p ++ List.concat c)) = 4 + len (List.concat c)) by (rewrite app_length, PL; unfold len; lia).
        rewrite ADD. split.
        + destruct R as [_ [RU RA]]. unfold vrep, vallocated in *; cbn [vwith_items vmode vused vitems]. rewrite M in *.
          split; [|split; auto].
          * exists [IData (le32_bytes (wrap32 (4 + len (List.concat c))))], t. split; [eexists; split; reflexivity|]. reflexivity.
          * rewrite H2 in RA. exact RA.
        + replace (N.to_nat (vused b)) with (S (length (map IData c))).
          2:{ destruct R as [_ [[RU|[RU _]] _]]; [|lia]. rewrite M in RU. cbn [vp] in RU. rewrite map_length. lia. }
          cbn [firstn iovs_bytes iov_bytes]. rewrite app_first by auto. rewrite iovs_bytes_map. auto. }
    destruct X as [b' [X1 [X2 [X3 [X4 X5]]]]].
    replace (vused b =? 0) with false in * by lia.
    match goal with |- context [obind ?e _] => replace e with (Ok b') by (destruct m; auto) end.
    cbn [obind skipn]. rewrite X5. cbn [N.to_nat skipn].
    destruct (sys_write a W) as [n out]. exists b'. split; auto. intros q _.
    split; auto. split; [congruence|]. split; auto. right. rewrite X5. f_equal. unfold W. rewrite X3.
    replace (vused b =? 0) with false by lia. auto.
  - destruct P as [P|P]; [lia|]. 
    destruct (vec_seek_ok _ _ 0 pos P) as [s [S1 S2]]. rewrite S1. cbn [obind].
    destruct (N.eqb_spec pos (len W)) as [D|D].
    + destruct s as [[k o]|o]; [destruct S2; lia|]. destruct S2 as [_ ->]. replace (pos - len W =? 0) with true by lia.
      eexists. split; [reflexivity|]. split; [auto|split; [auto|split; [auto|]]]. right. replace (vused b =? 0) with false by lia. exact P.
    + destruct s as [[k o]|o]; [|destruct S2; lia]. destruct S2 as [_ [_ [d' [S3 S4]]]]. rewrite Nat.sub_0_r in S3.
      assert (Y : match vmode b with PLAIN => Ok b | PREFIX => if pos =? 0 then vector_update_prefix b else Ok b end = Ok b).
      { replace (pos =? 0) with false by lia. destruct (vmode b); auto. }
      replace (pos =? 0) with false in Y by lia. rewrite Y. cbn [obind]. rewrite S3, S4.
      destruct (sys_write a (skipn (N.to_nat pos) W)) as [n out]. exists b. split; auto.
      intros q _. split; [auto|split; [auto|split; [auto|]]]. right. replace (vused b =? 0) with false by lia. exact P.
Qed.

Lemma vec_specs_fun ops rs c : forall c1 c2, vec_specs c ops rs c1 -> vec_specs c ops rs c2 -> c1 = c2.
Proof.
  intros c1 c2 S. revert c2. induction S as [c0|c0 o r c1 ops rs c2 S1 S2 IH]; intros c' SP; inversion SP as [|? ? ? c1' ? ? ? X1 X2]; subst; auto.
  apply IH. replace c1 with c1'; auto. clear - S1 X1. destruct o as [ao [d|n] w|pos w rew|ao|pos]; cbn [vec_spec] in *.
  - destruct S1 as [[? [-> _]]|[? ->]], X1 as [[? [-> _]]|[? ->]]; auto; lia.
  - contradiction.
  - destruct (_ <=? _); destruct S1 as [_ ->], X1 as [_ ->]; auto.
  - destruct S1 as [-> _], X1 as [-> _]; auto.
  - destruct S1 as [-> _], X1 as [-> _]; auto.
Qed.

Lemma vec_write_all_lemma : forall ao m i b ops b' rs c ans,
  vinit_ok i -> vector_create ao m i = Ok (inl b) -> Forall (vop_ok m) ops -> vec_run b ops = Ok (b', rs) ->
  vec_specs [] ops rs c -> Forall wrans_ok ans -> (c = [] /\ m = PLAIN \/ m = PREFIX \/ List.concat c <> []) ->
  exists b'' r out, write_all vbuf vector_write ans b' 0 = Ok (b'', r, out) /\
    write_all_spec ans (wire m (vused b' =? 0) (List.concat c)) r out.
Proof.
  intros ao m i b ops b' rs c ans I E F R SP AK NE. pose proof (vcreate_inv _ _ _ _ I E) as V.
  destruct (vec_run_ok m ops b [] V F) as [b1 [rs1 [c1 [R1 [V' S]]]]].
  rewrite R in R1. injection R1 as <- <-. pose proof (vec_specs_fun _ _ _ _ _ S SP) as ->.
  destruct V' as [V1 [V2 V3]].
  assert (NE' : vused b' = 0 \/ m = PREFIX \/ List.concat c <> []).
  { destruct NE as [[-> ->]|[NE|NE]]; auto. left. destruct V1 as [_ [[U|[U _]] _]]; auto. rewrite V2 in U. cbn in U. auto. }
  destruct (write_all_gen vbuf vector_write (vwinv m c b') (vwire m (vused b' =? 0) c)) with (ans := ans) (b := b') (pos := 0)
    as [b2 [r [out [E2 S2]]]]; auto.
  - intros a x pos X L. apply vector_write_step; auto.
  - split; [auto|split; [auto|split; auto]].
  - lia.
  - eauto.
Qed.
