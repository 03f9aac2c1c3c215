(* Linear buffers: contents, usage bounds, and the mark. *)
From Verif Require Import Base Buf_Model Buf_Spec.
Local Open Scope N_scope.
Local Opaque N.pow.

Ltac pw := change (2 ^ 64) with 18446744073709551616 in *; change (2 ^ 63) with 9223372036854775808 in *;
           change (2 ^ 62) with 4611686018427387904 in *; change (2 ^ 31) with 2147483648 in *;
           change (2 ^ 32) with 4294967296 in *.

Lemma wrap64_small x : x < 2 ^ 64 -> wrap64 x = x.
Proof. intro. unfold wrap64. apply N.mod_small. auto. Qed.

Lemma sub64_le a b : b <= a -> a < 2 ^ 64 -> sub64 a b = a - b.
Proof.
  intros. unfold sub64, wrap64. replace (a + (2 ^ 64 - b)) with ((a - b) + 1 * 2 ^ 64) by (pw; lia).
  rewrite N.mod_add by (pw; lia). apply N.mod_small. lia.
Qed.

(* What the buffer's memory says about its contents. *)
Definition lrep (b : lbuf) (c : bytes) : Prop :=
  (exists h t, N.of_nat (length h) = pfx (bmode b) /\ bmem b = h ++ map Some c ++ t) /\
  (bused b = pfx (bmode b) + len c \/ (bused b = 0 /\ c = [])) /\
  allocated b < 2 ^ 63.

Lemma lrep_len b c : lrep b c -> pfx (bmode b) + len c <= allocated b.
Proof.
  intros [[h [t [H1 H2]]] _]. unfold allocated, len. rewrite H2, !app_length, map_length. lia.
Qed.

Lemma lrep_used b c : lrep b c -> bused b <= allocated b.
Proof. intro H. pose proof (lrep_len _ _ H). destruct H as [_ [[H1|[H1 _]] _]]; lia. Qed.

Lemma lrep_count b c : lrep b c -> linear_count b = len c.
Proof.
  intros H. pose proof (lrep_len _ _ H). destruct H as [_ [H1 H2]].
  unfold linear_count, len in *. destruct (bmode b); cbn [pfx] in *.
  - destruct H1 as [H1|[H1 ->]]; [lia|]. rewrite H1. reflexivity.
  - destruct H1 as [H1|[H1 ->]].
    + destruct (N.eqb_spec (bused b) 0); [lia|]. unfold PREFIX_LEN. rewrite sub64_le; pw; lia.
    + rewrite H1. reflexivity.
Qed.

Lemma lrep_start b c : lrep b c -> add_start b = pfx (bmode b) + len c.
Proof.
  intros [_ [H1 _]]. unfold add_start, PREFIX_LEN, len in *.
  destruct (bmode b); cbn [pfx] in *; destruct H1 as [H1|[H1 ->]].
  - lia.
  - rewrite H1. reflexivity.
  - destruct (N.eqb_spec (bused b) 0); lia.
  - rewrite H1. reflexivity.
Qed.

(* Rounding up to a multiple of the step. *)
Lemma roundup_spec n s : s <> 0 ->
  n + (if n mod s =? 0 then 0 else s - n mod s) = s * ((n + s - 1) / s).
Proof.
  intro Hs. pose proof (N.div_mod n s Hs) as D. pose proof (N.mod_lt n s Hs) as L.
  destruct (N.eqb_spec (n mod s) 0) as [E|E].
  - assert (X : (n + s - 1) / s = n / s).
    { symmetry. apply N.div_unique with (r := s - 1); lia. }
    rewrite X. lia.
  - assert (X : (n + s - 1) / s = n / s + 1).
    { symmetry. apply N.div_unique with (r := n mod s - 1); lia. }
    rewrite X. lia.
Qed.

Lemma realloc_size_false i alloc needed :
  needed + istep i < 2 ^ 64 ->
  realloc_size i alloc needed false =
  if needed <=? alloc then inr 0%Z
  else if istep i =? 0 then inr (- EXFULL)%Z
  else let n := istep i * ((needed + istep i - 1) / istep i) in
       if negb (ilimit i =? 0) && (ilimit i <? n) then inr (- EOVERFLOW)%Z else inl n.
Proof.
  intro H. unfold realloc_size. cbn [negb andb].
  destruct (needed <=? alloc); [reflexivity|].
  destruct (N.eqb_spec (istep i) 0) as [E|E]; [reflexivity|].
  cbv zeta. rewrite <- (roundup_spec needed (istep i) E).
  pose proof (N.mod_lt needed (istep i) E).
  destruct (N.eqb_spec (needed mod istep i) 0).
  - rewrite N.add_0_r. reflexivity.
  - rewrite wrap64_small by lia. reflexivity.
Qed.

Lemma roundup_bounds n s : s <> 0 -> n <= s * ((n + s - 1) / s) < n + s.
Proof.
  intro Hs. rewrite <- roundup_spec by auto. pose proof (N.mod_lt n s Hs).
  destruct (N.eqb_spec (n mod s) 0); lia.
Qed.

Lemma roundup_limit n s k : s <> 0 -> (k * s <? s * ((n + s - 1) / s)) = (k * s <? n).
Proof.
  intro Hs. pose proof (roundup_bounds n s Hs) as [L U].
  destruct (N.ltb_spec (k * s) n); destruct (N.ltb_spec (k * s) (s * ((n + s - 1) / s))); auto; exfalso; [lia|].
  set (q := (n + s - 1) / s) in *.
  assert (k < q) by nia. assert (s * (k + 1) <= s * q) by (apply N.mul_le_mono_l; lia). lia.
Qed.

Lemma realloc_grow ao b needed b' r :
  needed + istep (binit b) < 2 ^ 64 -> allocated b < 2 ^ 63 ->
  linear_realloc ao b needed false = (b', r) ->
  (r = 0%Z /\ needed <= allocated b' /\ allocated b' < 2 ^ 63 /\ (exists k, bmem b' = bmem b ++ repeat None k) /\
   bmode b' = bmode b /\ binit b' = binit b /\ bused b' = bused b /\ bmark b' = bmark b) \/
  ((r < 0)%Z /\ b' = b).
Proof.
  intros H A E. unfold linear_realloc in E. rewrite realloc_size_false in E by auto.
  destruct (N.leb_spec needed (allocated b)) as [L|L].
  - inversion E; subst. left. repeat split; auto. exists 0%nat. cbn. rewrite app_nil_r. auto.
  - destruct (N.eqb_spec (istep (binit b)) 0) as [Z|Z]; [inversion E; subst; right; split; auto; reflexivity|].
    cbv zeta in E.
    set (n := istep (binit b) * ((needed + istep (binit b) - 1) / istep (binit b))) in *.
    pose proof (roundup_bounds needed (istep (binit b)) Z) as [L1 U1]. fold n in L1, U1.
    destruct (negb (ilimit (binit b) =? 0) && (ilimit (binit b) <? n));
      [inversion E; subst; right; split; auto; reflexivity|].
    unfold granted in E. destruct (N.eqb_spec n 0); [lia|].
    cbn [orb] in E. destruct (ao && (n <? 2 ^ 63)) eqn:G.
    + injection E as <- <-. left. unfold with_mem, allocated in *; cbn [bmem bmode binit bused bmark].
      rewrite app_length, firstn_length, repeat_length.
      repeat split; auto; try (pw; lia).
      exists (N.to_nat n - length (bmem b))%nat. rewrite firstn_all2 by lia. auto.
    + injection E as <- <-. right. split; auto. reflexivity.
Qed.

(* Outcome of an unforced realloc. *)
Lemma realloc_ok_iff ao b needed b' r :
  needed + istep (binit b) < 2 ^ 64 -> valid_init (binit b) ->
  linear_realloc ao b needed false = (b', r) ->
  r = 0%Z <-> (needed <= allocated b \/
     (istep (binit b) <> 0 /\ (ilimit (binit b) = 0 \/ needed <= ilimit (binit b)) /\ ao = true /\
      istep (binit b) * ((needed + istep (binit b) - 1) / istep (binit b)) < 2 ^ 63)).
Proof.
  intros H V E. unfold linear_realloc in E. rewrite realloc_size_false in E by auto.
  destruct (N.leb_spec needed (allocated b)) as [L|L].
  - inversion E; subst. tauto.
  - destruct (N.eqb_spec (istep (binit b)) 0) as [Z|Z]; [inversion E; subst; split; [discriminate|lia]|].
    cbv zeta in E.
    assert (X : negb (ilimit (binit b) =? 0) && (ilimit (binit b) <? istep (binit b) * ((needed + istep (binit b) - 1) / istep (binit b)))
                = negb (ilimit (binit b) =? 0) && (ilimit (binit b) <? needed)).
    { destruct (N.eqb_spec (ilimit (binit b)) 0) as [E0|E0]; [reflexivity|]. cbn [negb andb].
      destruct V as [V|[_ [_ [k [_ V]]]]]; [lia|]. rewrite V at 1 2. apply roundup_limit. auto. }
    rewrite X in E. clear X.
    set (n := istep (binit b) * ((needed + istep (binit b) - 1) / istep (binit b))) in *.
    pose proof (roundup_bounds needed (istep (binit b)) Z) as [L1 U1]. fold n in L1, U1.
    destruct (negb (ilimit (binit b) =? 0) && (ilimit (binit b) <? needed)) eqn:G1;
      [inversion E; subst; split; [discriminate|lia]|].
    unfold granted in E. destruct (N.eqb_spec n 0); [lia|].
    cbn [orb] in E. destruct (ao && (n <? 2 ^ 63)) eqn:G.
    + injection E as <- <-. split; [|auto]. intros _. right. split; auto. lia.
    + injection E as <- <-. split; [discriminate|lia].
Qed.

Lemma realloc_limit ao b needed force b' r :
  (ilimit (binit b) = 0 \/ allocated b <= ilimit (binit b)) ->
  linear_realloc ao b needed force = (b', r) ->
  ilimit (binit b') = 0 \/ allocated b' <= ilimit (binit b').
Proof.
  unfold linear_realloc, realloc_size. intros H E.
  destruct (negb force && (needed <=? allocated b)); [inversion E; subst; auto|].
  destruct ((if force then 1 else istep (binit b)) =? 0); [inversion E; subst; auto|].
  cbv zeta in E.
  set (n := if needed mod _ =? 0 then _ else _) in *.
  destruct (negb (ilimit (binit b) =? 0) && (ilimit (binit b) <? n)) eqn:G; [inversion E; subst; auto|].
  destruct (granted ao n); [|inversion E; subst; auto].
  injection E as <- <-. unfold with_mem, allocated in *; cbn [bmem binit].
  rewrite app_length, firstn_length, repeat_length. lia.
Qed.

Lemma realloc_force ao b needed b' r :
  allocated b < 2 ^ 63 ->
  linear_realloc ao b needed true = (b', r) ->
  (r = 0%Z /\ allocated b' = needed /\ allocated b' < 2 ^ 63 /\
   bmode b' = bmode b /\ binit b' = binit b /\ bused b' = bused b /\ bmark b' = bmark b /\
   (ilimit (binit b) = 0 \/ needed <= ilimit (binit b))) \/
  ((r < 0)%Z /\ r <> (- EINVAL)%Z /\ b' = b).
Proof.
  unfold linear_realloc, realloc_size. cbn [negb andb]. intros A E.
  change (1 =? 0) with false in E. cbv iota zeta in E.
  rewrite N.mod_1_r in E. change (0 =? 0) with true in E. cbv iota in E.
  destruct (negb (ilimit (binit b) =? 0) && (ilimit (binit b) <? needed)) eqn:G;
    [inversion E; subst; right; repeat split; auto; discriminate|].
  destruct (granted ao needed) eqn:G2.
  - injection E as <- <-. left. unfold with_mem, allocated in *; cbn [bmem bmode binit bused bmark].
    rewrite app_length, firstn_length, repeat_length. unfold granted in G2.
    repeat split; auto; try (pw; lia).
  - injection E as <- <-. right. repeat split; auto; discriminate.
Qed.

Lemma lrep_ext b b' c k :
  lrep b c -> bmem b' = bmem b ++ repeat None k -> allocated b' < 2 ^ 63 ->
  bmode b' = bmode b -> bused b' = bused b -> lrep b' c.
Proof.
  intros [[h [t [H1 H2]]] [H3 H4]] E A M U. unfold lrep. rewrite M, U. split; [|split]; auto.
  exists h, (t ++ repeat None k). split; auto. rewrite E, H2, <- !app_assoc. auto.
Qed.

Lemma app_skip {A} (l1 l2 : list A) n : n = length l1 -> skipn n (l1 ++ l2) = l2.
Proof. intros ->. rewrite skipn_app, skipn_all, Nat.sub_diag. reflexivity. Qed.
Lemma app_first {A} (l1 l2 : list A) n : n = length l1 -> firstn n (l1 ++ l2) = l1.
Proof. intros ->. rewrite firstn_app, firstn_all, Nat.sub_diag. cbn. apply app_nil_r. Qed.

(* Storing d right after the contents. *)
Lemma store_after b c d :
  lrep b c -> pfx (bmode b) + len c + N.of_nat (length d) <= allocated b ->
  exists h t, N.of_nat (length h) = pfx (bmode b) /\
    store (bmem b) (pfx (bmode b) + len c) d = Ok (h ++ map Some c ++ d ++ t) /\
    length (h ++ map Some c ++ d ++ t) = length (bmem b).
Proof.
  intros [[h [t [H1 H2]]] _] L. unfold store, allocated, len in *.
  assert (E : N.to_nat (pfx (bmode b) + N.of_nat (length c)) = length (h ++ map Some c))
    by (rewrite app_length, map_length; lia).
  destruct (N.leb_spec (pfx (bmode b) + N.of_nat (length c) + N.of_nat (length d)) (N.of_nat (length (bmem b)))); [|lia].
  exists h, (skipn (length d) t). split; auto.
  assert (X : skipn (N.to_nat (pfx (bmode b) + N.of_nat (length c)) + length d) (bmem b) = skipn (length d) t).
  { rewrite E, H2, app_assoc, skipn_app.
    replace (length (h ++ map Some c) + length d - length (h ++ map Some c))%nat with (length d) by lia.
    rewrite skipn_all2 by lia. reflexivity. }
  rewrite X. split.
  - rewrite E, H2, (app_assoc h (map Some c) t), app_first by reflexivity. rewrite <- !app_assoc. reflexivity.
  - rewrite H2 in *. rewrite !app_length, map_length in *. rewrite skipn_length. lia.
Qed.

Lemma ad_bytes_len d : len (ad_bytes d) = ad_len d.
Proof. destruct d as [x|n]; cbn; unfold len; auto. rewrite repeat_length. lia. Qed.

Lemma len_app a b : len (a ++ b) = len a + len b.
Proof. unfold len. rewrite app_length. lia. Qed.

Lemma lrep_mark b c k : lrep b c -> lrep (with_mark b k) c.
Proof. intro H; exact H. Qed.

(* After storing: the representation of the longer contents. *)
Lemma lrep_stored b c d t h u :
  allocated b < 2 ^ 63 -> length (h ++ map Some c ++ map Some d ++ t) = length (bmem b) ->
  N.of_nat (length h) = pfx (bmode b) -> u = pfx (bmode b) + len c + len d ->
  lrep (with_used (with_mem b (h ++ map Some c ++ map Some d ++ t)) u) (c ++ d).
Proof.
  intros A L H ->. unfold lrep, allocated in *; cbn [with_used with_mem bmem bmode bused].
  rewrite L. split; [|split]; auto.
  - exists h, t. split; auto. rewrite map_app, <- app_assoc. auto.
  - left. rewrite len_app. lia.
Qed.

Lemma linear_add_ok ao b c d :
  lrep b c -> init_sizes (binit b) -> ad_len d <= 2 ^ 62 ->
  exists b' r m p, linear_add ao b d = Ok (b', r, m, p) /\
    ((r = 0%Z /\ lrep b' (c ++ ad_bytes d) /\ p = len c /\ bmode b' = bmode b /\ binit b' = binit b /\
      bmark b' = bmark b /\ snd (linear_realloc ao b (pfx (bmode b) + len c + ad_len d) false) = 0%Z /\
      allocated b' = allocated (fst (linear_realloc ao b (pfx (bmode b) + len c + ad_len d) false)) /\
      ((m = None /\ ad_len d = 0) \/ m = Some (pfx (bmode b) + len c))) \/
     ((r < 0)%Z /\ b' = b /\ snd (linear_realloc ao b (pfx (bmode b) + len c + ad_len d) false) = r)).
Proof.
  intros R [I1 [I2 I3]] L. unfold linear_add. rewrite (lrep_start _ _ R), (lrep_count _ _ R).
  pose proof (lrep_len _ _ R) as LL. pose proof (proj2 (proj2 R)) as A.
  rewrite wrap64_small by (pw; lia).
  destruct (linear_realloc ao b (pfx (bmode b) + len c + ad_len d) false) as [b1 r1] eqn:E.
  apply realloc_grow in E; [|pw; lia|auto].
  destruct E as [[-> [G1 [G2 [[k G3] [G4 [G5 [G6 G7]]]]]]]|[G1 ->]].
  - cbv zeta. change (0 <? 0)%Z with false. cbv iota.
    assert (R1 : lrep b1 c) by (eapply lrep_ext; eauto).
    destruct (N.eqb_spec (allocated b1) 0) as [Z|Z].
    + assert (c = []) by (destruct c; auto; unfold len in *; cbn in G1; lia). subst c.
      assert (ad_bytes d = []).
      { pose proof (ad_bytes_len d). destruct (ad_bytes d); auto. unfold len in *. cbn in *. lia. }
      eexists _, _, _, _. split; [reflexivity|]. left. rewrite H.
      split; [auto|]. split; [|repeat split; auto; left; split; auto; lia].
      destruct R1 as [X1 [X2 X3]]. split; [|split]; auto. cbn [with_used bused bmode]. left.
      pose proof (ad_bytes_len d) as Y. rewrite H in Y. rewrite G4. change (len ([] ++ [])) with 0. change (len []) with 0 in *. lia.
    + destruct (N.ltb_spec (allocated b1) (pfx (bmode b) + len c + ad_len d)); [lia|].
      destruct (store_after b1 c (map Some (ad_bytes d)) R1) as [h [t [S1 [S2 S3]]]].
      { rewrite map_length. pose proof (ad_bytes_len d). unfold len in *. rewrite G4. lia. }
      rewrite G4 in S2. rewrite S2. cbn [obind]. eexists _, _, _, _. split; [reflexivity|]. left.
      split; [auto|]. split.
      { apply lrep_stored; auto. rewrite ad_bytes_len, G4. auto. }
      repeat split; auto.
      unfold with_used, with_mem, allocated in *; cbn [bmem]. rewrite S3. cbn [fst]. auto.
  - cbv zeta. replace (r1 <? 0)%Z with true by lia.
    eexists _, _, _, _. split; [reflexivity|]. right. repeat split; auto.
Qed.

Lemma vsn_ok b c avail s :
  lrep b c -> pfx (bmode b) + len c + avail <= allocated b ->
  exists h t, N.of_nat (length h) = pfx (bmode b) /\
    vsn (bmem b) (pfx (bmode b) + len c) avail s = Ok (h ++ map Some c ++ t) /\
    length (h ++ map Some c ++ t) = length (bmem b) /\
    (len s < avail -> exists t', t = map Some (s ++ [NUL]) ++ t').
Proof.
  intros R L. unfold vsn. destruct (N.eqb_spec avail 0) as [->|Z].
  - destruct R as [[h [t [H1 H2]]] _]. exists h, t. rewrite H2. repeat split; auto. lia.
  - destruct (store_after b c (map Some (firstn (N.to_nat (avail - 1)) s ++ [NUL])) R) as [h [t [S1 [S2 S3]]]].
    { rewrite map_length, app_length, firstn_length. cbn [length]. lia. }
    exists h, (map Some (firstn (N.to_nat (avail - 1)) s ++ [NUL]) ++ t). repeat split; auto.
    intro. exists t. rewrite firstn_all2 by (unfold len in *; lia). auto.
Qed.

Lemma linear_fmt_ok ao b c s :
  lrep b c -> init_sizes (binit b) -> len s <= 2 ^ 62 ->
  exists b' r m p, linear_fmt_add ao b s = Ok (b', r, m, p) /\
    bmode b' = bmode b /\ binit b' = binit b /\ bmark b' = bmark b /\
    ((r = 0%Z /\ lrep b' (c ++ s ++ [NUL]) /\ p = len c /\ len s < 2 ^ 31 /\
      (exists k, allocated b' = allocated b + k) /\
      (ilimit (binit b) = 0 \/ allocated b <= ilimit (binit b) -> ilimit (binit b') = 0 \/ allocated b' <= ilimit (binit b')) /\
      snd (linear_realloc ao b (pfx (bmode b) + len c + len s + 1) false) = 0%Z /\
      (m = Some (pfx (bmode b) + len c))) \/
     ((r < 0)%Z /\ lrep b' c /\ allocated b' = allocated b /\ bused b' = bused b /\
      (2 ^ 31 <= len s \/ snd (linear_realloc ao b (pfx (bmode b) + len c + len s + 1) false) = r))).
Proof.
  intros R I L. unfold linear_fmt_add. rewrite (lrep_start _ _ R), (lrep_count _ _ R).
  pose proof (lrep_len _ _ R) as LL. pose proof (proj2 (proj2 R)) as A. cbv zeta.
  destruct (N.ltb_spec (allocated b) (pfx (bmode b) + len c)); [lia|].
  change (N.of_nat (length s)) with (len s) in *.
  destruct (N.leb_spec (2 ^ 31) (len s)) as [P|P].
  { eexists _, _, _, _. split; [reflexivity|]. repeat split; auto. right. repeat split; auto; try reflexivity; apply R. }
  destruct (vsn_ok b c (allocated b - (pfx (bmode b) + len c)) s R) as [h [t [V1 [V2 [V3 V4]]]]]; [lia|].
  rewrite V2. cbn [obind].
  set (b0 := with_mem b (h ++ map Some c ++ t)).
  assert (A0 : allocated b0 = allocated b) by (unfold b0, allocated; cbn [with_mem bmem]; rewrite V3; auto).
  assert (R0 : lrep b0 c).
  { split; [|split]; [exists h, t; auto| exact (proj1 (proj2 R)) |rewrite A0; auto]. }
  destruct I as [I1 [I2 I3]].
  rewrite (wrap64_small (pfx (bmode b) + len c + len s + 1)) by (pw; lia).
  assert (SR : snd (linear_realloc ao b0 (pfx (bmode b) + len c + len s + 1) false) =
               snd (linear_realloc ao b (pfx (bmode b) + len c + len s + 1) false)).
  { unfold linear_realloc. rewrite A0. change (binit b0) with (binit b).
    destruct (realloc_size _ _ _ _) as [n|]; auto. destruct (granted ao n); auto. }
  destruct (N.leb_spec (allocated b - (pfx (bmode b) + len c)) (len s)) as [F|F].
  - destruct (linear_realloc ao b0 (pfx (bmode b) + len c + len s + 1) false) as [b1 r1] eqn:E.
    cbn [snd] in SR.
    pose proof E as E'. apply realloc_grow in E; [|unfold b0; cbn [with_mem binit]; pw; lia|rewrite A0; auto].
    destruct E as [[-> [G1 [G2 [[k G3] [G4 [G5 [G6 G7]]]]]]]|[G1 ->]].
    + change (0 <? 0)%Z with false. cbv iota.
      assert (R1 : lrep b1 c) by (eapply lrep_ext; eauto).
      assert (M1 : bmode b1 = bmode b) by (rewrite G4; reflexivity).
      rewrite sub64_le by (pw; lia). rewrite <- M1 in G1 |- *.
      destruct (vsn_ok b1 c (allocated b1 - (pfx (bmode b1) + len c)) s R1) as [h1 [t1 [W1 [W2 [W3 W4]]]]]; [lia|].
      rewrite W2. cbn [obind].
      destruct W4 as [t2 ->]; [lia|].
      eexists _, _, _, _. split; [reflexivity|]. split; [reflexivity|]. split; [exact G5|]. split; [exact G7|].
      left. split; auto. split.
      { apply lrep_stored; auto. rewrite (len_app s [NUL]). change (len [NUL]) with 1. lia. }
      split; auto. split; auto. split.
      { exists (N.of_nat k). unfold allocated in *. cbn [with_used with_mem bmem]. rewrite W3, G3, app_length, repeat_length.
        rewrite Nat2N.inj_add. unfold b0, with_mem in *. cbn [bmem] in *. lia. }
      split.
      { intro X. unfold allocated in *. cbn [with_used with_mem bmem binit]. rewrite W3.
        eapply realloc_limit; [|exact E']. unfold allocated. cbn [b0 with_mem bmem binit].
        rewrite V3. exact X. }
      split; auto. rewrite M1. auto.
    + replace (r1 <? 0)%Z with true by lia.
      eexists _, _, _, _. split; [reflexivity|]. repeat split; auto.
      right. repeat split; auto; try apply R0.
  - destruct V4 as [t2 ->]; [lia|].
    eexists _, _, _, _. split; [reflexivity|]. split; [reflexivity|]. split; [reflexivity|]. split; [reflexivity|].
    left. split; auto. split.
    { unfold b0. apply lrep_stored; auto. rewrite (len_app s [NUL]). change (len [NUL]) with 1. lia. }
    split; auto. split; auto. split; [exists 0; rewrite N.add_0_r; exact A0|]. split.
    { intro X. unfold allocated in *. cbn [b0 with_used with_mem bmem binit]. rewrite V3. auto. }
    split; auto. unfold linear_realloc. rewrite realloc_size_false by (pw; lia).
    replace (_ <=? allocated b) with true by lia. reflexivity.
Qed.

Lemma map_firstn' {A B} (f : A -> B) n l : map f (firstn n l) = firstn n (map f l).
Proof. revert n; induction l as [|x l IH]; intros [|n]; cbn; auto. rewrite IH. auto. Qed.
Lemma map_skipn' {A B} (f : A -> B) n l : map f (skipn n l) = skipn n (map f l).
Proof. revert n; induction l as [|x l IH]; intros [|n]; cbn; auto. Qed.

Lemma release_ok b c pos rew b' r :
  lrep b c -> pos <= len c -> (c = [] -> bused b = pfx (bmode b) \/ bmode b = PLAIN \/ rew = false \/ True) ->
  linear_release b pos rew = (b', r) ->
  r = 0%Z /\ lrep b' (if rew then firstn (N.to_nat pos) c else c) /\ bmode b' = bmode b /\ binit b' = binit b /\
  bmem b' = bmem b /\
  bmark b' = match bmark b with Some mp => if pos <=? mp then None else Some mp | None => None end.
Proof.
  intros R L _ E. pose proof (lrep_len _ _ R) as LL. pose proof (proj2 (proj2 R)) as A.
  unfold linear_release in E.
  set (b0 := match bmark b with Some mp => if pos <=? mp then with_mark b None else b | None => b end) in *.
  assert (X : bmode b0 = bmode b /\ binit b0 = binit b /\ bmem b0 = bmem b /\ bused b0 = bused b /\
    bmark b0 = match bmark b with Some mp => if pos <=? mp then None else Some mp | None => None end).
  { unfold b0. destruct (bmark b) eqn:M; [|rewrite M; auto]. destruct (pos <=? n) ; cbn; auto. }
  destruct X as [X1 [X2 [X3 [X4 X5]]]].
  assert (R0 : lrep b0 c).
  { unfold lrep, allocated in *. rewrite X1, X3, X4. exact R. }
  injection E as <- <-. destruct rew; cbn [with_used bmode binit bmem bmark]; [|auto 10].
  split; auto. split; [|auto].
  destruct R as [[h [t [H1 H2]]] _].
  unfold lrep, allocated in *. cbn [with_used bmode bmem bused]. rewrite X1, X3. split; [|split]; auto.
  - exists h, (map Some (skipn (N.to_nat pos) c) ++ t). split; auto.
    rewrite H2. rewrite (app_assoc (map Some _) (map Some _) t), <- map_app, firstn_skipn. auto.
  - left. unfold len, PREFIX_LEN in *. rewrite firstn_length. destruct (bmode b); cbn [pfx] in *;
      [|rewrite wrap64_small by (pw; lia)]; lia.
Qed.

Lemma check_buf_ok i : init_ok i -> exists v, check_buf i = Ok v /\ (v = true <-> valid_init i).
Proof.
  intros [[I1 [I2 I3]] I4]. unfold check_buf, valid_init.
  destruct (N.eqb_spec (ilimit i) 0); [eexists; split; [reflexivity|]; tauto|].
  destruct (N.leb_spec (isize i) (ilimit i)); cbn [negb];
    [|eexists; split; [reflexivity|]; split; [discriminate|intros [?|[? _]]; lia]].
  destruct (N.eqb_spec (istep i) 0); [exfalso; auto|].
  destruct (N.leb_spec (istep i) (ilimit i)); cbn [negb].
  - eexists; split; [reflexivity|]. split.
    + intro E. right. split; auto. split; auto. exists (ilimit i / istep i).
      assert (M : ilimit i mod istep i = 0) by lia.
      pose proof (N.div_mod (ilimit i) (istep i)). split; [|nia].
      intro Z. rewrite Z in *. nia.
    + intros [?|[_ [_ [k [_ ->]]]]]; [lia|]. rewrite N.mod_mul by auto. reflexivity.
  - eexists; split; [reflexivity|]. split; [discriminate|]. intros [?|[_ [_ [k [K ?]]]]]; [lia|]. nia.
Qed.

Lemma lrep_reset b b' : allocated b' < 2 ^ 63 -> pfx (bmode b) <= allocated b' -> bmode b' = bmode b -> bused b' = 0 -> lrep b' [].
Proof.
  intros A P M U. unfold lrep, allocated in *. rewrite M, U. split; [|split]; auto.
  exists (firstn (N.to_nat (pfx (bmode b))) (bmem b')), (skipn (N.to_nat (pfx (bmode b))) (bmem b')).
  split; [rewrite firstn_length; lia|]. cbn [map app]. rewrite firstn_skipn. auto.
Qed.

Lemma linear_needed_ok m i : init_sizes i -> linear_needed m i = pfx m + isize i.
Proof. intros [I _]. destruct m; cbn [linear_needed pfx]; auto. unfold PREFIX_LEN. rewrite wrap64_small by (pw; lia); lia. Qed.

Lemma linear_reset_ok ao b c b' r :
  lrep b c -> init_sizes (binit b) -> linear_reset ao b = (b', r) ->
  lrep b' [] /\ bmode b' = bmode b /\ binit b' = binit b /\ bmark b' = bmark b /\
  (r = 0%Z \/ ((r < 0)%Z /\ r <> (- EINVAL)%Z)) /\
  (r = 0%Z -> ilimit (binit b) = 0 \/ allocated b' <= ilimit (binit b)) /\
  (r <> 0%Z -> allocated b' = allocated b).
Proof.
  intros R I E. unfold linear_reset in E. pose proof (lrep_len _ _ R) as LL. pose proof (proj2 (proj2 R)) as A.
  apply realloc_force in E; [|exact A]. rewrite linear_needed_ok in E by auto.
  destruct E as [[-> [E1 [E2 [E3 [E4 [E5 [E6 E7]]]]]]]|[E1 [E2 ->]]].
  - split; [apply (lrep_reset b); auto; lia|]. cbn [with_used bmode binit bmark] in *. repeat split; auto.
    + intros _. rewrite E1. auto.
    + intro X; contradiction.
  - split; [apply (lrep_reset b); auto; cbn; unfold allocated in *; cbn [with_used bmem]; lia|].
    repeat split; auto. lia.
Qed.

(* The state invariant: contents, sizes, and the validity of the init in force. *)
Definition linv (m : bufmode) (b : lbuf) (c : bytes) : Prop :=
  lrep b c /\ bmode b = m /\ init_ok (binit b) /\ valid_init (binit b).

Lemma linear_get_ok b c pos :
  lrep b c ->
  exists b' r d, sid_buf_get_data_from b pos = (b', r, d) /\
    lrep b' c /\ bmode b' = bmode b /\ binit b' = binit b /\ bmem b' = bmem b /\ bused b' = bused b /\
    if pos <=? len c
    then r = 0%Z /\ d = Some (pfx (bmode b) + pos, len c - pos) /\
         bmark b' = match bmark b with None => Some pos | Some q => if pos <? 1 then Some pos else Some q end
    else r = (- ERANGE)%Z /\ d = None /\ b' = b.
Proof.
  intro R. unfold sid_buf_get_data_from. rewrite (lrep_count _ _ R).
  pose proof (lrep_len _ _ R) as LL. pose proof (proj2 (proj2 R)) as A. pose proof (proj1 (proj2 R)) as U.
  destruct (N.ltb_spec (len c) pos); [eexists _, _, _; split; [reflexivity|]; replace (pos <=? len c) with false by lia; auto 10|].
  replace (pos <=? len c) with true by lia.
  set (b0 := if match bmark b with None => true | Some _ => pos <? 1 end then with_mark b (Some pos) else b).
  assert (X : bmode b0 = bmode b /\ binit b0 = binit b /\ bmem b0 = bmem b /\ bused b0 = bused b /\
    bmark b0 = match bmark b with None => Some pos | Some q => if pos <? 1 then Some pos else Some q end).
  { unfold b0. destruct (bmark b) as [q|] eqn:M; [|cbn; auto]. destruct (pos <? 1); cbn; rewrite ?M; auto. }
  destruct X as [X1 [X2 [X3 [X4 X5]]]].
  cbv zeta. fold b0. eexists _, _, _. split; [reflexivity|].
  split. { unfold lrep, allocated in *. rewrite X1, X3, X4. exact R. }
  repeat split; auto. rewrite X1, X4. f_equal. unfold PREFIX_LEN, len in *.
  destruct (bmode b); cbn [pfx] in *.
  - destruct U as [U|[U ->]]; [|rewrite U; cbn [length] in *; assert (pos = 0) by lia; subst; reflexivity].
    rewrite sub64_le by (pw; lia). rewrite U. f_equal; lia.
  - destruct U as [U|[U ->]].
    + destruct (N.eqb_spec (bused b) 0); [lia|]. rewrite (sub64_le (bused b)) by (pw; lia).
      rewrite sub64_le by (pw; lia). f_equal; lia.
    + rewrite U. cbn [length] in *. assert (pos = 0) by lia. subst. reflexivity.
Qed.

Lemma load_ok b c pos :
  lrep b c -> pos <= len c ->
  load b (pfx (bmode b) + pos) (len c - pos) = Ok (map Some (skipn (N.to_nat pos) c)).
Proof.
  intros R L. pose proof (lrep_len _ _ R) as LL. unfold load.
  destruct (N.eqb_spec (len c - pos) 0).
  - rewrite skipn_all2 by (unfold len in *; lia). reflexivity.
  - replace (_ <=? _) with true by lia. f_equal.
    destruct R as [[h [t [H1 H2]]] _]. rewrite H2.
    replace (N.to_nat (pfx (bmode b) + pos)) with (length h + N.to_nat pos)%nat by lia.
    rewrite skipn_app, skipn_all2, app_nil_l by lia.
    replace (length h + N.to_nat pos - length h)%nat with (N.to_nat pos) by lia.
    rewrite skipn_app, map_length.
    replace (N.to_nat pos - length c)%nat with 0%nat by (unfold len in *; lia). cbn [skipn].
    rewrite <- map_skipn', firstn_app, map_length, skipn_length.
    replace (N.to_nat (len c - pos) - (length c - N.to_nat pos))%nat with 0%nat by (unfold len in *; lia).
    rewrite firstn_all2 by (rewrite map_length, skipn_length; unfold len in *; lia).
    cbn [firstn]. apply app_nil_r.
Qed.

Lemma linv_intro m b c : lrep b c -> bmode b = m -> init_ok (binit b) -> valid_init (binit b) -> linv m b c.
Proof. intros; split; [|split; [|split]]; auto. Qed.

Ltac li := apply linv_intro; [eassumption | congruence
  | first [assumption | match goal with H : binit ?a = _ |- init_ok (binit ?a) => rewrite H; assumption end]
  | first [assumption | match goal with H : binit ?a = _ |- valid_init (binit ?a) => rewrite H; assumption end]].

(* One step: no UB, spec, invariant; plus the facts needed for limits and marks. *)
Lemma buf_step_ok m b c o :
  linv m b c -> op_ok m o ->
  exists b' r c', buf_step b o = Ok (b', r) /\ linv m b' c' /\ buf_spec m c o r c' /\
    ((match o with OResetInit _ _ => ret r = 0%Z \/ ret r = (- EINVAL)%Z | _ => True end) ->
     ilimit (binit b) = 0 \/ allocated b <= ilimit (binit b) ->
     ilimit (binit b') = 0 \/ allocated b' <= ilimit (binit b')) /\
    (match o with
     | OAdd _ _ w | OFmt _ _ w =>
         match bmark b with
         | Some _ => ret r = (- EBUSY)%Z /\ b' = b
         | None => ret r <> (- EBUSY)%Z /\ bmark b' = if (ret r =? 0)%Z then (if w then Some (len c) else None) else None
         end
     | ORelease pos w _ =>
         bmark b' = if (ret r =? 0)%Z && negb (len c =? 0)
                    then match bmark b with Some mp => if abs_pos c pos w <=? mp then None else Some mp | None => None end
                    else bmark b
     | OMemRelease (Some z) _ =>
         bmark b' = if (ret r =? 0)%Z
                    then match bmark b with Some mp => if Z.to_N z - pfx m <=? mp then None else Some mp | None => None end
                    else bmark b
     | OMemRelease None _ => bmark b' = bmark b
     | OReset _ => bmark b' = None
     | OGet pos => bmark b' = if (ret r =? 0)%Z
                              then match bmark b with None => Some pos | Some q => if pos <? 1 then Some pos else Some q end
                              else bmark b
     | OResetInit _ _ => True
     end).
Proof.
  intros [R [M [I V]]] O. pose proof (lrep_len _ _ R) as LL. pose proof (proj2 (proj2 R)) as A.
  destruct o as [ao d w|ao s w|pos w rew|p rew|ao|ao i|pos]; cbn [buf_step op_ok] in *.
  - (* add *)
    unfold sid_buf_add, buf_add_gen. destruct (bmark b) as [mp|] eqn:MK.
    { eexists _, _, c. split; [reflexivity|]. split; [li|]. cbn [buf_spec ret]. 
      split; [right; split; [reflexivity|auto]|]. split; auto. }
    destruct (linear_add_ok ao b c d R (proj1 I) O) as [b' [r [mm [p [E [[-> [E1 [E2 [E3 [E4 [E5 [E6 [E7 E8]]]]]]]]|[E1 [-> E3]]]]]]]].
    + rewrite E. cbn [obind]. change (0 <? 0)%Z with false. cbn [obind].
      eexists _, _, (c ++ ad_bytes d). split; [reflexivity|].
      assert (X : linv m b' (c ++ ad_bytes d)) by li.
      split; [destruct w; exact X|]. cbn [buf_spec ret rpos rmem].
      split; [left; repeat split; auto; intros -> NZ; rewrite <- M; destruct E8 as [[_ E8]| ->]; auto; lia|]. split.
      { intros _ H. pose proof (realloc_limit ao b (pfx (bmode b) + len c + ad_len d) false _ _ H (surjective_pairing _)) as Y.
        rewrite <- E7 in Y.
        assert (binit (fst (linear_realloc ao b (pfx (bmode b) + len c + ad_len d) false)) = binit b).
        { unfold linear_realloc. destruct (realloc_size _ _ _ _) as [n|]; auto. destruct (granted ao n); auto. }
        rewrite H0 in Y. destruct w; cbn [with_mark binit]; unfold allocated in *; cbn [bmem with_mark]; rewrite E4; auto. }
      split; [discriminate|]. change (0 =? 0)%Z with true. cbv iota. destruct w; cbn [with_mark bmark]; congruence.
    + rewrite E. cbn [obind]. replace (r <? 0)%Z with true by lia. cbn [obind].
      eexists _, _, c. split; [reflexivity|]. split; [li|]. cbn [buf_spec ret].
      split; [right; auto|]. split; auto.
      split.
      { unfold linear_realloc in E3. 
        destruct (realloc_size _ _ _ _) as [n|z] eqn:RS.
        - destruct (granted ao n); cbn in E3; subst; discriminate.
        - cbn in E3. subst z. unfold realloc_size in RS. cbn [negb andb] in RS.
          repeat match type of RS with context [if ?x then _ else _] => destruct x end; inversion RS; discriminate. }
      replace (r =? 0)%Z with false by lia. auto.
  - (* fmt *)
    unfold sid_buf_add_fmt, buf_add_gen. destruct (bmark b) as [mp|] eqn:MK.
    { eexists _, _, c. split; [reflexivity|]. split; [li|]. cbn [buf_spec ret]. 
      split; [right; split; [reflexivity|auto]|]. split; auto. }
    destruct (linear_fmt_ok ao b c s R (proj1 I) O) as [b' [r [mm [p [E [E4 [E5 [E6 E7]]]]]]]].
    destruct E7 as [[-> [E1 [E2 [E3 [_ [E7 [E8 E9]]]]]]]|[E1 [E2 [E3 [E7 E8]]]]].
    + rewrite E. cbn [obind]. change (0 <? 0)%Z with false. cbn [obind].
      eexists _, _, (c ++ s ++ [NUL]). split; [reflexivity|].
      assert (X : linv m b' (c ++ s ++ [NUL])) by li.
      split; [destruct w; exact X|]. cbn [buf_spec ret rpos rmem].
      split; [left; repeat split; auto; intros ->; rewrite <- M; auto|]. split.
      { intros _ H. destruct w; exact (E7 H). }
      split; [discriminate|]. change (0 =? 0)%Z with true. cbv iota. destruct w; cbn [with_mark bmark]; congruence.
    + rewrite E. cbn [obind]. replace (r <? 0)%Z with true by lia. cbn [obind].
      eexists _, _, c. split; [reflexivity|].
      split; [li|]. cbn [buf_spec ret].
      split; [right; auto|]. split; [rewrite E5, E3; auto|].
      split.
      { unfold linear_fmt_add in E. cbv zeta in E.
        intro; subst r.
        destruct (_ <? add_start b); [discriminate|].
        destruct (2 ^ 31 <=? _); [injection E as <- Hr _ _; discriminate|].
        destruct (vsn _ _ _ _) as [mem1|]; [|discriminate]. cbn [obind] in E.
        destruct (_ <=? N.of_nat (length s)).
        - destruct (linear_realloc _ _ _ _) as [b1 r1] eqn:RR.
          destruct (r1 <? 0)%Z eqn:RN.
          + injection E as <- -> _ _. unfold linear_realloc in RR.
            destruct (realloc_size _ _ _ _) as [n|z] eqn:RS.
            * destruct (granted ao n); inversion RR.
            * injection RR as _ ->. unfold realloc_size in RS. cbn [negb andb] in RS.
              repeat match type of RS with context [if ?x then _ else _] => destruct x end; inversion RS; discriminate.
          + destruct (vsn _ _ _ _); [|discriminate]. cbn [obind] in E. injection E; intros; discriminate.
        - injection E; intros; discriminate. }
      replace (r =? 0)%Z with false by lia. congruence.
  - (* release *)
    unfold do_release. rewrite (lrep_count _ _ R).
    destruct (N.eqb_spec (len c) 0) as [Z|Z].
    { assert (c = []) by (destruct c; auto; unfold len in *; cbn in Z; lia). subst c.
      eexists _, _, []. split; [reflexivity|]. split; [li|]. cbn [buf_spec rcode ret].
      rewrite Z. split; [|split; auto; rewrite andb_false_r; auto].
      destruct (N.leb_spec pos 0); destruct (N.eqb_spec pos 0); try lia; auto.
      rewrite firstn_nil. destruct rew; auto. }
    destruct (N.ltb_spec (len c) pos) as [L|L].
    { eexists _, _, c. split; [reflexivity|]. split; [li|]. cbn [buf_spec rcode ret].
      replace (pos <=? len c) with false by lia. auto. }
    change (match w with ABS => pos | REL => len c - pos end) with (abs_pos c pos w).
    destruct (linear_release b (abs_pos c pos w) rew) as [b' r] eqn:E.
    apply (release_ok b c) in E; [|auto|destruct w; cbn; lia|auto].
    destruct E as [-> [E1 [E2 [E3 [E4 E5]]]]].
    eexists _, _, _. split; [reflexivity|]. split; [li|].
    cbn [buf_spec rcode ret]. replace (pos <=? len c) with true by lia. split; auto.
    split; [unfold allocated in *; rewrite E3, E4; auto|]. rewrite E5. reflexivity.
  - (* mem release *)
    unfold do_mem_release. destruct p as [z|].
    2:{ eexists _, _, c. split; [reflexivity|]. split; [li|]. cbn [buf_spec rcode ret]. auto. }
    cbn [buf_spec]. destruct (Z.ltb_spec z 0).
    { eexists _, _, c. split; [reflexivity|]. split; [li|]. cbn [rcode ret].
      split; auto. }
    destruct O as [O|O]; [lia|].
    destruct (N.ltb_spec (bused b) (Z.to_N z)) as [L|L].
    { eexists _, _, c. split; [reflexivity|]. split; [li|]. cbn [rcode ret].
      split; [|auto].
      destruct (N.leb_spec (Z.to_N z - pfx m) (len c)); [|auto].
      destruct R as [_ [[U|[U ->]] _]]; [rewrite M in U; lia|].
      split; [|intro X; contradiction]. rewrite firstn_nil. destruct rew; auto. }
    assert (U : bused b = pfx m + len c \/ z = 0%Z).
    { destruct R as [_ [[U|[U ->]] _]]; [rewrite M in U; lia|]. right. lia. }
    assert (PZ : z = 0%Z -> m = PLAIN) by (destruct m; auto; cbn in O; lia).
    assert (L2 : Z.to_N z - pfx m <= len c) by (destruct U; lia).
    replace (match bmode b with PLAIN => Z.to_N z | PREFIX => sub64 (Z.to_N z) PREFIX_LEN end)
      with (Z.to_N z - pfx m).
    2:{ rewrite M. destruct m; cbn [pfx] in *; [lia|]. pose proof (lrep_used _ _ R).
        unfold PREFIX_LEN. rewrite sub64_le; pw; lia. }
    destruct (linear_release b (Z.to_N z - pfx m) rew) as [b' r] eqn:E.
    apply (release_ok b c) in E; auto.
    destruct E as [-> [E1 [E2 [E3 [E4 E5]]]]].
    eexists _, _, _. split; [reflexivity|]. split; [li|].
    cbn [rcode ret]. replace (_ <=? len c) with true by lia. split; auto.
    split; [unfold allocated in *; rewrite E3, E4; auto|]. rewrite E5. reflexivity.
  - (* reset *)
    unfold sid_buf_reset. destruct (linear_reset ao (with_mark b None)) as [b' r] eqn:E.
    apply (linear_reset_ok ao _ c) in E; [|exact R|apply I].
    destruct E as [E1 [E2 [E3 [E4 [E5 [E6 E7]]]]]]. cbn [with_mark bmode binit bmark] in *.
    eexists _, _, []. split; [reflexivity|]. split; [li|].
    cbn [buf_spec rcode ret]. split; [split; auto; lia|]. split; auto.
    intros _ H. rewrite E3. destruct (Z.eq_dec r 0); auto. rewrite E7 by auto. exact H.
  - (* reset_init *)
    unfold sid_buf_reset_init. destruct i as [i|].
    2:{ eexists _, _, c. split; [reflexivity|]. split; [li|]. cbn [buf_spec rcode ret]. auto. }
    destruct (check_buf_ok i O) as [v [C1 C2]]. rewrite C1. cbn [obind]. destruct v; cbn [negb].
    + destruct (linear_reset ao (with_init (with_mark b None) i)) as [b' r] eqn:E. cbn [obind].
      apply (linear_reset_ok ao _ c) in E; [|exact R|exact (proj1 O)].
      destruct E as [E1 [E2 [E3 [E4 [E5 [E6 E7]]]]]]. cbn [with_mark with_init bmode binit bmark] in *.
      eexists _, _, []. split; [reflexivity|].
      split; [assert (valid_init i) by (apply C2; auto); li|].
      cbn [buf_spec rcode ret]. split; [left; split; [apply C2; auto|]; split; auto; lia|]. split; auto.
      intros H _. rewrite E3. apply E6. lia.
    + cbn [obind]. eexists _, _, c. split; [reflexivity|]. split; [change (linv m b c); li|]. cbn [buf_spec rcode ret].
      split; [|auto]. right. split; auto. intro X. apply C2 in X. discriminate.
  - (* get *)
    destruct (linear_get_ok b c pos R) as [b' [r [d [E [E1 [E2 [E3 [E4 [E5 E6]]]]]]]]].
    rewrite E. destruct (N.leb_spec pos (len c)).
    + destruct E6 as [-> [-> E6]]. rewrite <- E2, (load_ok b' c pos) by auto. cbn [obind].
      eexists _, _, c. split; [reflexivity|]. split; [li|].
      cbn [buf_spec ret rmem rdata]. replace (pos <=? len c) with true by lia.
      split; [repeat split; auto; congruence|]. split; [unfold allocated in *; rewrite E3, E4; auto|]. exact E6.
    + destruct E6 as [-> [-> ->]]. eexists _, _, c. split; [reflexivity|]. split; [li|].
      cbn [buf_spec rcode ret]. replace (pos <=? len c) with false by lia. auto.
Qed.

Lemma create_inv ao m i b :
  init_ok i -> linear_create ao m i = Ok (inl b) ->
  linv m b [] /\ bmark b = None /\ binit b = i /\ bused b = 0 /\ (ilimit i = 0 \/ allocated b <= ilimit i).
Proof.
  intros I E. unfold linear_create in E. destruct (check_buf_ok i I) as [v [C1 C2]]. rewrite C1 in E. cbn [obind] in E.
  destruct v; cbn [negb] in E; [|discriminate].
  set (b0 := {| bmode := m; binit := i; bmem := []; bused := 0; bmark := None |}) in *.
  destruct (linear_realloc ao b0 (linear_needed m i) true) as [b1 r] eqn:F.
  apply realloc_force in F; [|unfold allocated; cbn; pw; lia].
  destruct F as [[-> [F1 [F2 [F3 [F4 [F5 [F6 F7]]]]]]]|[F1 [F2 ->]]].
  - cbn in E. injection E as <-. cbn [b0 bmode binit bused bmark] in *.
    rewrite linear_needed_ok in * by apply I.
    split; [|repeat split; auto; try congruence; rewrite F1; auto].
    split; [apply (lrep_reset b0); auto; cbn; lia|]. repeat split; rewrite ?F4; auto; try apply I. apply C2; auto.
  - replace (r <? 0)%Z with true in E by lia. discriminate.
Qed.

(* Histories: C17. *)
Lemma buf_run_ok m ops : forall b c, linv m b c -> Forall (op_ok m) ops ->
  exists b' rs c', buf_run b ops = Ok (b', rs) /\ linv m b' c' /\ buf_specs m c ops rs c' /\
    (resets_done ops rs -> ilimit (binit b) = 0 \/ allocated b <= ilimit (binit b) ->
     ilimit (binit b') = 0 \/ allocated b' <= ilimit (binit b')).
Proof.
  induction ops as [|o ops IH]; intros b c V F.
  - exists b, [], c. repeat split; try apply V; auto. constructor.
  - inversion F as [|? ? F1 F2]; subst.
    destruct (buf_step_ok m b c o V F1) as [b1 [r [c1 [E [V1 [S1 [L1 _]]]]]]].
    destruct (IH b1 c1 V1 F2) as [b2 [rs [c2 [E2 [V2 [S2 L2]]]]]].
    exists b2, (r :: rs), c2. cbn [buf_run]. rewrite E. cbn [obind]. rewrite E2. cbn [obind].
    split; auto. split; auto. split; [econstructor; eauto|].
    intros D Z. unfold resets_done in D. cbn [combine] in D. inversion D as [|? ? D1 D2]; subst. cbn [fst snd] in D1.
    apply L2; auto.
Qed.

Lemma linear_content_lemma : forall ao m i b ops,
  init_ok i -> linear_create ao m i = Ok (inl b) -> Forall (op_ok m) ops ->
  exists b' rs c, buf_run b ops = Ok (b', rs) /\ buf_specs m [] ops rs c /\
    linear_count b' = len c /\ bused b' = (if (bused b' =? 0) then 0 else pfx m + len c) /\
    exists b'', buf_step b' (OGet 0) =
      Ok (b'', {| ret := 0; rmem := Some (pfx m); rpos := 0; rdata := Some (map Some c) |}).
Proof.
  intros ao m i b ops I E F. destruct (create_inv _ _ _ _ I E) as [V _].
  destruct (buf_run_ok m ops b [] V F) as [b' [rs [c [R [V' [S _]]]]]].
  exists b', rs, c. split; auto. split; auto. split; [apply lrep_count; apply V'|]. split.
  { destruct V' as [[_ [[U|[U ->]] _]] [<- _]]; rewrite U; [|reflexivity]. destruct (N.eqb_spec (pfx (bmode b') + len c) 0); auto. }
  cbn [buf_step]. destruct (linear_get_ok b' c 0 (proj1 V')) as [b2 [r [d [G [G1 [G2 [_ [_ [_ G3]]]]]]]]].
  rewrite G. replace (0 <=? len c) with true in G3 by lia. destruct G3 as [-> [-> _]].
  rewrite <- G2, (load_ok b2 c 0) by (auto; lia). cbn [obind skipn N.to_nat].
  exists b2. replace (bmode b2) with m by (rewrite G2; symmetry; apply V'). rewrite N.add_0_r. auto.
Qed.

Lemma linear_bounds_lemma : forall ao m i b ops b' rs,
  init_ok i -> linear_create ao m i = Ok (inl b) -> Forall (op_ok m) ops -> buf_run b ops = Ok (b', rs) ->
  bused b' <= allocated b' /\ (resets_done ops rs -> ilimit (binit b') = 0 \/ allocated b' <= ilimit (binit b')).
Proof.
  intros ao m i b ops b' rs I E F R. destruct (create_inv _ _ _ _ I E) as [V [_ [V2 [_ V3]]]].
  destruct (buf_run_ok m ops b [] V F) as [b1 [rs1 [c [R1 [V' [S L]]]]]].
  rewrite R in R1. injection R1 as <- <-. split; [eapply lrep_used; apply V'|].
  intro D. apply L; auto. rewrite V2. auto.
Qed.

(* When an add succeeds, and that a refused one changes nothing. *)
Lemma linear_add_iff_lemma : forall ao m i b ops b' rs d w ao',
  init_ok i -> linear_create ao m i = Ok (inl b) -> Forall (op_ok m) ops -> buf_run b ops = Ok (b', rs) ->
  ad_len d <= 2 ^ 62 -> bmark b' = None ->
  exists b2 r mm p, sid_buf_add ao' b' d w = Ok (b2, r, mm, p) /\
    let need := pfx m + linear_count b' + ad_len d in
    let step := istep (binit b') in
    (r = 0%Z <-> (need <= allocated b' \/
       (step <> 0 /\ (ilimit (binit b') = 0 \/ need <= ilimit (binit b')) /\ ao' = true /\
        step * ((need + step - 1) / step) < 2 ^ 63))) /\
    (r = 0%Z -> linear_count b2 = linear_count b' + ad_len d) /\
    (r <> 0%Z -> b2 = b').
Proof.
  intros ao m i b ops b' rs d w ao' I E F R D MK. destruct (create_inv _ _ _ _ I E) as [V _].
  destruct (buf_run_ok m ops b [] V F) as [b1 [rs1 [c [R1 [V' [S L]]]]]].
  rewrite R in R1. injection R1 as <- <-.
  destruct V' as [V1 [V2 [V3 V4]]]. pose proof (proj2 (proj2 V1)) as A. pose proof (lrep_len _ _ V1) as LL.
  unfold sid_buf_add, buf_add_gen. rewrite MK.
  destruct (linear_add_ok ao' b' c d V1 (proj1 V3) D) as [b2 [r [mm [p [G G1]]]]].
  rewrite G. cbn [obind].
  assert (X : snd (linear_realloc ao' b' (pfx m + len c + ad_len d) false) = r).
  { rewrite <- V2. destruct G1 as [[-> [_ [_ [_ [_ [_ [G1 _]]]]]]]|[_ [_ G1]]]; auto. }
  destruct (linear_realloc ao' b' (pfx m + len c + ad_len d) false) as [b3 r3] eqn:RR. cbn [snd] in X. subst r3.
  apply realloc_ok_iff in RR; [|destruct V3 as [[? [? ?]] _]; rewrite V2 in LL; pw; lia|auto].
  rewrite (lrep_count _ _ V1).
  destruct G1 as [[-> [G1 [_ [_ [_ _]]]]]|[G1 [-> _]]].
  - change (0 <? 0)%Z with false. cbv iota. eexists _, _, _, _. split; [reflexivity|]. cbv zeta.
    split; [exact RR|]. split; [|intro Y; contradiction]. intros _.
    replace (linear_count (if w then with_mark b2 (Some p) else b2)) with (linear_count b2) by (destruct w; reflexivity).
    rewrite (lrep_count _ _ G1), len_app, ad_bytes_len. auto.
  - replace (r <? 0)%Z with true by lia. eexists _, _, _, _. split; [reflexivity|]. cbv zeta.
    split; [exact RR|]. split; auto. lia.
Qed.

(* The mark. *)
Definition mark_inv (b : lbuf) (c : bytes) (bound : list N) : Prop :=
  match bmark b with
  | None => bound = []
  | Some mp => (In mp bound /\ Forall (fun q => mp <= q) bound) \/ (c = [] /\ mp = 0 /\ bound = [])
  end /\ Forall (fun q => q <= len c) bound.

Lemma filter_none {A} (f : A -> bool) l : Forall (fun x => f x = false) l -> filter f l = [].
Proof. induction 1; cbn; auto. rewrite H. auto. Qed.

Lemma filter_forall {A} (P : A -> Prop) (f : A -> bool) l : Forall P l -> Forall P (filter f l).
Proof. induction 1; cbn; auto. destruct (f x); auto. Qed.

Lemma mark_release b b' c c' bound p :
  mark_inv b c bound -> p <= len c ->
  bmark b' = match bmark b with Some mp => if p <=? mp then None else Some mp | None => None end ->
  (c' = c \/ c' = firstn (N.to_nat p) c) ->
  mark_inv b' c' (filter (fun q => q <? p) bound).
Proof.
  intros [H1 H2] L E C. split.
  - rewrite E. destruct (bmark b) as [mp|]; [|rewrite H1; reflexivity].
    destruct H1 as [[H1 H3]|[-> [-> ->]]].
    + destruct (N.leb_spec p mp).
      * apply filter_none. eapply Forall_impl; [|exact H3]. cbn. intros. lia.
      * left. split; [apply filter_In; split; auto; lia|]. apply filter_forall. auto.
    + cbn in L. replace p with 0 by (unfold len in L; cbn in L; lia). reflexivity.
  - destruct C as [->| ->]; [apply filter_forall; auto|].
    apply Forall_forall. intros q Q. apply filter_In in Q. unfold len in *. rewrite firstn_length. lia.
Qed.

Lemma len_firstn p c : p <= len c -> len (firstn (N.to_nat p) c) = p.
Proof. unfold len. intro. rewrite firstn_length. lia. Qed.

Lemma mark_step m b c o bound :
  linv m b c -> op_ok m o -> mark_inv b c bound -> mark_op_ok bound o ->
  exists b' r c', buf_step b o = Ok (b', r) /\ linv m b' c' /\ buf_spec m c o r c' /\
    mark_inv b' c' (bound_step m c bound o r).
Proof.
  intros V O [MI MB] MO. destruct (buf_step_ok m b c o V O) as [b' [r [c' [E [V' [S [_ K]]]]]]].
  exists b', r, c'. split; auto. split; auto. split; auto.
  assert (SAME : bmark b' = bmark b -> c' = c -> mark_inv b' c' bound)
    by (intros X1 ->; split; [rewrite X1|]; auto).
  destruct o as [ao d w|ao s w|pos w rew|p rew|ao|ao i|pos]; unfold bound_step; cbn [buf_spec mark_op_ok] in *.
  - destruct (bmark b) as [mp|] eqn:MK.
    + destruct K as [K ->]. rewrite K. cbn. destruct S as [[S _]|[_ ->]]; [rewrite K in S; discriminate|].
      apply SAME; auto.
    + destruct K as [_ K]. subst bound. destruct S as [[S [-> _]]|[S ->]].
      * rewrite S in *. cbn in *. destruct w.
        -- unfold mark_inv. rewrite K. split; [left; split; [left; auto|]|]; constructor; auto; try lia. rewrite len_app; lia.
        -- unfold mark_inv. rewrite K. auto.
      * replace (ret r =? 0)%Z with false in * by lia. cbn. apply SAME; auto.
  - destruct (bmark b) as [mp|] eqn:MK.
    + destruct K as [K ->]. rewrite K. cbn. destruct S as [[S _]|[_ ->]]; [rewrite K in S; discriminate|].
      apply SAME; auto.
    + destruct K as [_ K]. subst bound. destruct S as [[S [-> _]]|[S ->]].
      * rewrite S in *. cbn in *. destruct w.
        -- unfold mark_inv. rewrite K. split; [left; split; [left; auto|]|]; constructor; auto; try lia. rewrite len_app; lia.
        -- unfold mark_inv. rewrite K. auto.
      * replace (ret r =? 0)%Z with false in * by lia. cbn. apply SAME; auto.
  - destruct (N.leb_spec pos (len c)).
    + destruct S as [S1 S2]. rewrite S1 in *. cbn [negb Z.eqb andb] in *.
      destruct (N.eqb_spec (len c) 0) as [Z|Z]; cbn [negb] in K.
      * assert (c = []) by (destruct c; auto; unfold len in *; cbn in Z; lia). subst c.
        assert (c' = []) by (rewrite firstn_nil in S2; destruct rew; auto). clear S2; subst c'.
        replace (abs_pos [] pos w) with 0 by (unfold abs_pos; destruct w; unfold len in *; cbn [length] in *; lia).
        rewrite filter_none by (apply Forall_forall; intros; lia).
        split; auto. rewrite K. destruct (bmark b) as [mp|]; auto. right.
        destruct MI as [[MI _]|MI]; [|destruct MI as [_ [-> _]]; auto]. rewrite Forall_forall in MB. apply MB in MI. unfold len in *; cbn in *. split; auto. split; auto. lia.
      * eapply mark_release; [split; eassumption| |exact K|].
        -- unfold abs_pos; destruct w; lia.
        -- destruct rew; auto.
    + destruct S as [S ->]. rewrite S in *. cbn in *. apply SAME; auto.
  - destruct p as [z|].
    2:{ destruct S as [S ->]. rewrite S. cbn. apply SAME; auto. }
    destruct (Z.ltb_spec z 0).
    { destruct S as [S ->]. rewrite S in *. cbn in *. apply SAME; auto. }
    destruct (N.leb_spec (Z.to_N z - pfx m) (len c)).
    + destruct S as [S1 S2]. destruct (Z.eqb_spec (ret r) 0) as [Z|Z]; cbn [negb].
      * eapply mark_release; [split; eassumption|auto|exact K|]. destruct rew; auto.
      * assert (c = []) by (destruct c; auto; exfalso; apply Z, S2; discriminate). subst c.
        rewrite firstn_nil in S1. apply SAME; auto. destruct rew; auto.
    + destruct S as [S ->]. rewrite S in *. cbn in *. apply SAME; auto.
  - destruct S as [-> S]. 
    replace (if negb (ret r =? 0)%Z then [] else []) with (@nil N) by (destruct (ret r =? 0)%Z; auto).
    split; auto. rewrite K. auto.
  - contradiction.
  - destruct S as [-> S]. destruct (N.leb_spec pos (len c)).
    + destruct S as [S _]. rewrite S in *. cbn in *. unfold mark_inv. rewrite K. split; [|constructor; auto].
      destruct (bmark b) as [mp|] eqn:MK.
      * destruct (N.ltb_spec pos 1).
        -- left. split; [left; auto|]. apply Forall_forall. intros. lia.
        -- left. destruct MI as [[M1 M2]|[-> [-> ->]]].
           ++ split; [right; auto|]. constructor; auto.
              destruct MO as [MO|MO]; [lia|]. rewrite Forall_forall in MO. apply MO. auto.
           ++ unfold len in *; cbn in *. lia.
      * subst. left. split; [left; auto|]. constructor; auto. lia.
    + rewrite S in *. cbn in *. apply SAME; auto.
Qed.

Lemma mark_run m c bound ops rs c' bound' : bound_run m c bound ops rs c' bound' ->
  forall b b', linv m b c -> mark_inv b c bound -> Forall (op_ok m) ops -> buf_run b ops = Ok (b', rs) ->
  exists c2 , linv m b' c2 /\ mark_inv b' c2 bound' /\ c2 = c'.
Proof.
  induction 1 as [c bd|c bd o r c1 ops rs c2 bd2 MO S BR IH]; intros b b' V MI F R.
  - cbn in R. injection R as <-. exists c. auto.
  - inversion F as [|? ? F1 F2]; subst.
    destruct (mark_step m b c o bd V F1 MI MO) as [b1 [r1 [c1' [E [V1 [S1 M1]]]]]].
    cbn [buf_run] in R. rewrite E in R. cbn [obind] in R.
    destruct (buf_run b1 ops) as [[b2 rs2]|] eqn:R2; [|discriminate]. cbn [obind] in R. injection R as <- -> ->.
    assert (c1' = c1).
    { clear - S S1. destruct o; cbn [buf_spec] in *.
      - destruct S as [[A1 [-> _]]|[A1 ->]]; destruct S1 as [[B1 [-> _]]|[B1 ->]]; auto; lia.
      - destruct S as [[A1 [-> _]]|[A1 ->]]; destruct S1 as [[B1 [-> _]]|[B1 ->]]; auto; lia.
      - destruct (pos <=? len c); destruct S as [_ ->], S1 as [_ ->]; auto.
      - destruct p as [z|]; [|destruct S as [_ ->], S1 as [_ ->]; auto].
        destruct (z <? 0)%Z; [destruct S as [_ ->], S1 as [_ ->]; auto|].
        destruct (_ <=? len c); [destruct S as [-> _], S1 as [-> _]|destruct S as [_ ->], S1 as [_ ->]]; auto.
      - destruct S as [-> _], S1 as [-> _]; auto.
      - destruct i; [|destruct S as [_ ->], S1 as [_ ->]; auto].
        destruct S as [[A1 [-> _]]|[A1 [_ ->]]], S1 as [[B1 [-> _]]|[B1 [_ ->]]]; auto; contradiction.
      - destruct S as [-> _], S1 as [-> _]; auto. }
    subst c1'. eapply IH; eauto.
Qed.

Lemma linear_mark_lemma : forall ao m i b ops b' rs c bound,
  init_ok i -> linear_create ao m i = Ok (inl b) -> Forall (op_ok m) ops -> buf_run b ops = Ok (b', rs) ->
  bound_run m [] [] ops rs c bound ->
  forall ao' d w, ad_len d <= 2 ^ 62 ->
  exists b2 r mm p, sid_buf_add ao' b' d w = Ok (b2, r, mm, p) /\
    (bound <> [] -> r = (- EBUSY)%Z) /\
    (r = (- EBUSY)%Z -> b2 = b' /\ (c <> [] -> bound <> [])).
Proof.
  intros ao m i b ops b' rs c bound I E F R BR ao' d w D.
  destruct (create_inv _ _ _ _ I E) as [V [MK _]].
  destruct (mark_run m [] [] ops rs c bound BR b b' V) as [c2 [V' [[M1 M2] ->]]]; auto.
  { split; auto. rewrite MK. auto. }
  destruct (buf_step_ok m b' c (OAdd ao' d w) V' D) as [b2 [r [c' [E2 [_ [_ [_ K]]]]]]].
  cbn [buf_step] in E2. destruct (sid_buf_add ao' b' d w) as [[[[b3 r3] m3] p3]|] eqn:EA; [|discriminate].
  cbn [obind] in E2. injection E2 as -> <-. cbn [ret] in K.
  eexists _, _, _, _. split; [reflexivity|].
  destruct (bmark b') as [mp|].
  - destruct K as [-> ->]. split; auto. intros _. split; auto. intros X.
    destruct M1 as [[M1 _]|[M1 _]]; [|contradiction]. intros ->. contradiction.
  - subst bound. split; [intro X; contradiction|]. intro X. destruct K; contradiction.
Qed.
