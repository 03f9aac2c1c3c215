(* Buffers: reading from and writing to a file descriptor. *)
From Verif Require Import Base Buf_Model Buf_Spec Buf_Proofs.
Local Open Scope N_scope.
Local Opaque N.pow.

Definition rinv (w : bytes) (b : lbuf) (s : bytes) : Prop :=
  exists j, s = skipn j w /\ (j <= length w)%nat /\ bused b = N.of_nat j /\ bmode b = PREFIX /\ 4 <= allocated b /\
    N.of_nat j <= allocated b /\ allocated b < 2 ^ 63 /\ exists t, bmem b = map Some (firstn j w) ++ t.

Lemma skipn_add {A} n a : forall l : list A, skipn n (skipn a l) = skipn (a + n) l.
Proof. induction a as [|a IH]; intros l; cbn; auto. destruct l; cbn; auto. rewrite skipn_nil. auto. Qed.

Lemma byteN_lt x : byteN x < 256.
Proof. apply N_ascii_bounded. Qed.

Lemma le32_lt a b c d : le32 a b c d < 2 ^ 32.
Proof.
  unfold le32. pose proof (byteN_lt a). pose proof (byteN_lt b). pose proof (byteN_lt c). pose proof (byteN_lt d).
  change (2 ^ 8) with 256. change (2 ^ 16) with 65536. change (2 ^ 24) with 16777216. pw. lia.
Qed.

Lemma le32_bytes_inv n : n < 2 ^ 32 -> exists a b c d, le32_bytes n = [a; b; c; d] /\ le32 a b c d = n.
Proof.
  intro H. unfold le32_bytes. cbn [map]. do 4 eexists. split; [reflexivity|]. unfold le32, byteN.
  rewrite !N_ascii_embedding by (apply N.mod_lt; lia). rewrite !N.shiftr_div_pow2.
  change (2 ^ 0) with 1. change (2 ^ 8) with 256. change (2 ^ 16) with 65536. change (2 ^ 24) with 16777216. pw.
  rewrite N.div_1_r.
  replace 65536 with (256 * 256) by reflexivity. replace 16777216 with (256 * 256 * 256) by reflexivity.
  rewrite <- !N.div_div by lia.
  pose proof (N.div_mod n 256). pose proof (N.div_mod (n / 256) 256). pose proof (N.div_mod (n / 256 / 256) 256).
  assert (n / 256 / 256 / 256 < 256).
  { rewrite !N.div_div by lia. apply N.div_lt_upper_bound; lia. }
  rewrite (N.mod_small (n / 256 / 256 / 256)) by auto. lia.
Qed.

Lemma le32_bytes_len n : length (le32_bytes n) = 4%nat.
Proof. reflexivity. Qed.

Lemma rinv_expected w b s : rinv w b s ->
  expected b = Ok (if 4 <=? bused b then match announced w with Some p => p | None => 0 end else 0).
Proof.
  intros [j [_ [J [U [_ [_ [_ [_ [t M]]]]]]]]]. unfold expected, PREFIX_LEN.
  destruct (N.leb_spec 4 (bused b)); [|reflexivity].
  destruct w as [|w0 [|w1 [|w2 [|w3 w]]]]; cbn [length] in J; try lia.
  destruct j as [|[|[|[|j]]]]; try lia. rewrite M. cbn [firstn map app announced]. reflexivity.
Qed.

Lemma rinv_complete w b s : rinv w b s ->
  linear_is_complete b = Ok (match announced w with Some p => (4 <=? bused b) && (bused b =? p) | None => false end).
Proof.
  intros I. unfold linear_is_complete. rewrite (rinv_expected w b s I).
  destruct I as [j [_ [J [U [M _]]]]]. rewrite M. cbn [obind].
  destruct (N.eqb_spec (bused b) 0) as [Z|Z].
  - rewrite Z. destruct (announced w); reflexivity.
  - destruct (N.leb_spec 4 (bused b)); cbn [andb].
    + destruct (announced w) eqn:A; [reflexivity|].
      destruct w as [|w0 [|w1 [|w2 [|w3 w]]]]; cbn [length] in J; try discriminate; lia.
    + destruct (announced w); f_equal; lia.
Qed.

Lemma rinv_store w b s n :
  rinv w b s -> N.of_nat n <= allocated b - bused b -> (n <= length s)%nat ->
  exists m, store (bmem b) (bused b) (map Some (firstn n s)) = Ok m /\ length m = length (bmem b) /\
    rinv w (with_used (with_mem b m) (bused b + N.of_nat n)) (skipn n s).
Proof.
  intros [j [S [J [U [M [A4 [JA [A [t T]]]]]]]]] L1 L2. unfold store.
  assert (LF : length (map Some (firstn n s)) = n) by (rewrite map_length, firstn_length; lia).
  rewrite LF. unfold allocated in *.
  destruct (N.leb_spec (bused b + N.of_nat n) (N.of_nat (length (bmem b)))); [|lia].
  assert (LJ : length (map Some (firstn j w)) = j) by (rewrite map_length, firstn_length; lia).
  assert (EQ : firstn (N.to_nat (bused b)) (bmem b) = map Some (firstn j w)).
  { rewrite T. apply app_first. lia. }
  rewrite EQ.
  eexists. split; [reflexivity|].
  assert (LL : length (map Some (firstn j w) ++ map Some (firstn n s) ++ skipn (N.to_nat (bused b) + n) (bmem b)) = length (bmem b)).
  { rewrite !app_length, LF, LJ, skipn_length. lia. }
  split; [exact LL|].
  exists (j + n)%nat. unfold allocated; cbn [with_used with_mem bused bmode bmem]. rewrite LL.
  subst s. rewrite skipn_length in L2.
  split; [apply skipn_add|]. split; [lia|]. split; [lia|]. split; auto. split; auto. split; [lia|]. split; auto.
  exists (skipn (N.to_nat (bused b) + n) (bmem b)). rewrite app_assoc, <- map_app. f_equal. f_equal.
  rewrite <- (firstn_skipn j w) at 3. rewrite firstn_app.
  rewrite (firstn_all2 (n := (j + n)%nat) (firstn j w)) by (rewrite firstn_length; lia).
  rewrite firstn_length. replace (j + n - Nat.min j (length w))%nat with n by lia. reflexivity.
Qed.

(* One read in size-prefix mode, for any stream, kernel answer and allocator answer. *)
Lemma read_step w ao a b s :
  rinv w b s -> init_sizes (binit b) -> rdans_ok a ->
  exists b' n s', sid_buf_read ao a b s = Ok (b', n, s') /\ rinv w b' s' /\ binit b' = binit b /\
    let p := match announced w with Some p => p | None => 0 end in
    (linear_is_complete b = Ok true -> n = (- EXFULL)%Z /\ b' = b /\ s' = s) /\
    (linear_is_complete b = Ok false ->
     match a with
     | RErr e => n = (- e)%Z /\ b' = b /\ s' = s
     | RGive k =>
         let got := N.min (N.min k (allocated b - bused b)) (len s) in
         bused b' = bused b + got /\ s' = skipn (N.to_nat got) s /\
         (got = 0 -> b' = b /\ n = if bused b =? 0 then 0%Z else (- EBADMSG)%Z) /\
         (got <> 0 ->
          if 4 <=? bused b' then
            if p =? 0 then n = Z.of_N got /\ allocated b' = allocated b
            else if p <? 4 then n = (- EBADE)%Z
            else if bused b <? 4
                 then (let (b2, r) := linear_realloc ao (with_used b (bused b')) p false in
                       n = (if (r <? 0)%Z then r else Z.of_N got) /\ allocated b' = allocated b2)
                 else n = Z.of_N got /\ allocated b' = allocated b
          else n = Z.of_N got /\ allocated b' = allocated b)
     end).
Proof.
  intros I IS AK. unfold sid_buf_read. pose proof I as [j [S [J [U [M [A4 [JA [A [t T]]]]]]]]]. rewrite M.
  unfold linear_read_prefix.
  pose proof (rinv_complete w b s I) as C. rewrite C. cbn [obind].
  set (cpl := match announced w with Some p => (4 <=? bused b) && (bused b =? p) | None => false end) in *.
  destruct cpl eqn:CP.
  { eexists _, _, _. split; [reflexivity|]. split; auto. split; auto. split; [auto|discriminate]. }
  rewrite (sub64_le (allocated b)) by (pw; lia).
  destruct a as [k|e]; cbn [sys_read rdans_ok] in *.
  2:{ replace (0 <? - e)%Z with false by lia. replace (- e =? 0)%Z with false by lia.
      eexists _, _, _. split; [reflexivity|]. split; auto. split; auto. split; [discriminate|auto]. }
  set (gn := Nat.min (Nat.min (N.to_nat k) (N.to_nat (allocated b - bused b))) (length s)).
  assert (GE : N.min (N.min k (allocated b - bused b)) (len s) = N.of_nat gn) by (unfold gn, len; lia).
  rewrite GE. set (p := match announced w with Some p => p | None => 0 end) in *.
  destruct (Nat.eq_dec gn 0) as [G0|G0].
  - rewrite G0. cbn [Z.of_nat Z.ltb Z.compare Z.eqb firstn skipn].
    rewrite (rinv_expected w b s I). fold p. cbn [obind].
    assert (X : ((if 4 <=? bused b then p else 0) =? 0) && negb (bused b =? 0) || negb ((if 4 <=? bused b then p else 0) =? 0) && negb (bused b =? (if 4 <=? bused b then p else 0)) = negb (bused b =? 0)).
    { destruct (N.leb_spec 4 (bused b)); cbn [N.eqb negb andb orb]; [|rewrite orb_false_r; auto].
      unfold cpl, p in *. destruct (announced w) as [q|]; [|cbn; rewrite orb_false_r; auto].
      destruct (N.eqb_spec q 0); cbn [negb andb orb]; [rewrite orb_false_r; auto|].
      replace (4 <=? bused b) with true in CP by lia. cbn [andb] in CP. rewrite CP. cbn. lia. }
    rewrite X. destruct (N.eqb_spec (bused b) 0) as [Z|Z]; cbn [negb];
      (eexists _, _, _; split; [reflexivity|]; split; auto; split; auto; split; [discriminate|];
       intros _; cbv zeta; split; [lia|]; split; [reflexivity|]; split; [auto|]; intro Y; exfalso; apply Y; reflexivity).
  - replace (0 <? Z.of_nat gn)%Z with true by lia.
    destruct (rinv_store w b s gn I) as [m [ST [LM I2]]]; [lia|lia|]. rewrite ST. cbn [obind].
    replace (Z.to_N (Z.of_nat gn)) with (N.of_nat gn) by lia.
    set (b1 := with_used (with_mem b m) (bused b + N.of_nat gn)) in *.
    assert (AB : allocated b1 = allocated b) by (unfold allocated, b1; cbn [with_used with_mem bmem]; rewrite LM; auto).
    rewrite (rinv_expected w b1 _ I2). fold p. cbn [obind].
    assert (UB1 : bused b1 = bused b + N.of_nat gn) by reflexivity.
    assert (PL : p < 2 ^ 32).
    { unfold p, announced. destruct w as [|? [|? [|? [|? ?]]]]; try (pw; lia). apply le32_lt. }
    assert (SN : skipn (N.to_nat (N.of_nat gn)) s = skipn gn s) by (f_equal; lia).
    destruct (N.leb_spec 4 (bused b1)) as [L4|L4].
    + destruct (N.eqb_spec p 0) as [P0|P0].
      { eexists _, _, _. split; [reflexivity|]. split; auto. split; auto. split; [discriminate|]. intros _. cbv zeta.
        split; auto. split; auto. split; [lia|]. intros _. replace (4 <=? bused b1) with true by lia.
        split; [lia|auto]. }
      unfold PREFIX_LEN. destruct (N.ltb_spec p 4) as [P4|P4].
      { eexists _, _, _. split; [reflexivity|]. split; auto. split; auto. split; [discriminate|]. intros _. cbv zeta.
        split; auto. split; auto. split; [lia|]. intros _. replace (4 <=? bused b1) with true by lia.
        auto. }
      destruct (N.ltb_spec (bused b) 4) as [B4|B4].
      * destruct (linear_realloc ao b1 p false) as [b2 r] eqn:RR.
        assert (RE : snd (linear_realloc ao (with_used b (bused b1)) p false) = r /\
                     allocated (fst (linear_realloc ao (with_used b (bused b1)) p false)) = allocated b2).
        { unfold linear_realloc in *. change (binit b1) with (binit b) in RR.
          change (binit (with_used b (bused b1))) with (binit b).
          change (allocated (with_used b (bused b1))) with (allocated b). rewrite AB in RR.
          destruct (realloc_size _ _ _ _) as [nn|]; [|inversion RR; subst; cbn; auto].
          destruct (granted ao nn); inversion RR; subst; cbn; [|auto]. split; auto.
          unfold allocated in *. cbn [bmem with_mem]. rewrite !app_length, !firstn_length, !repeat_length. rewrite LM. lia. }
        apply realloc_grow in RR; [|cbn [b1 with_used with_mem binit]; destruct IS as [? [? ?]]; pw; lia|rewrite AB; auto].
        assert (I3 : rinv w b2 (skipn gn s) /\ binit b2 = binit b /\ bused b2 = bused b1).
        { destruct RR as [[-> [R1 [R2 [[kk R3] [R4 [R5 [R6 R7]]]]]]]|[R1 ->]]; [|auto].
          split; [|split; auto].
          destruct I2 as [j2 [S2 [J2 [U2 [M2 [A42 [JA2 [A2 [t2 T2]]]]]]]]].
          assert (allocated b1 <= allocated b2) by (unfold allocated; rewrite R3, app_length; lia).
          exists j2. rewrite R4, R6. repeat split; auto; try lia.
          exists (t2 ++ repeat None kk). rewrite R3, T2, <- app_assoc. auto. }
        eexists _, _, _. split; [reflexivity|]. split; [apply I3|]. split; [apply I3|]. split; [discriminate|].
        intros _. cbv zeta. destruct I3 as [_ [_ I3]].
        split; [rewrite I3; auto|]. split; auto. split; [lia|]. intros _. rewrite I3.
        replace (4 <=? bused b1) with true by lia. replace (p =? 0) with false by lia. replace (p <? 4) with false by lia.
        destruct (linear_realloc ao (with_used b (bused b1)) p false) as [b3 r3]. cbn [fst snd] in RE.
        destruct RE as [-> RE]. split; [|auto]. destruct (r <? 0)%Z; auto; lia.
      * eexists _, _, _. split; [reflexivity|]. split; auto. split; auto. split; [discriminate|]. intros _. cbv zeta.
        split; auto. split; auto. split; [lia|]. intros _. replace (4 <=? bused b1) with true by lia.
        replace (p =? 0) with false by lia. replace (p <? 4) with false by lia. split; [lia|auto].
    + eexists _, _, _. split; [reflexivity|]. split; auto. split; auto. split; [discriminate|]. intros _. cbv zeta.
      split; auto. split; auto. split; [lia|]. intros _. replace (4 <=? bused b1) with false by lia. split; [lia|auto].
Qed.

Lemma create_rinv ao i b w : init_ok i -> linear_create ao PREFIX i = Ok (inl b) -> rinv w b w /\ binit b = i.
Proof.
  intros I E. destruct (create_inv _ _ _ _ I E) as [[V [M _]] [_ [BI [U _]]]]. split; auto.
  pose proof (lrep_len _ _ V) as L. rewrite M in L. cbn [pfx] in L. change (len []) with 0 in L.
  exists 0%nat. cbn [skipn firstn map app]. split; auto. split; [lia|]. split; auto. split; auto. split; [lia|].
  split; [lia|]. split; [apply V|]. exists (bmem b). auto.
Qed.

(* The data a caller gets once the message is complete. *)
Lemma rinv_get w b s : rinv w b s -> 4 <= bused b ->
  exists b', buf_step b (OGet 0) = Ok (b', {| ret := 0; rmem := Some 4; rpos := 0;
       rdata := Some (map Some (firstn (N.to_nat (bused b) - 4) (skipn 4 w))) |}).
Proof.
  intros [j [S [J [U [M [A4 [JA [A [t T]]]]]]]]] L.
  assert (R : lrep b (firstn (N.to_nat (bused b) - 4) (skipn 4 w))).
  { split; [|split; auto].
    - exists (map Some (firstn 4 w)), t. rewrite map_length, firstn_length, M. cbn [pfx]. split; [lia|].
      rewrite T, app_assoc, <- map_app. f_equal. f_equal.
      rewrite <- (firstn_skipn 4 w) at 1. rewrite firstn_app.
      rewrite (firstn_all2 (firstn 4 w)) by (rewrite firstn_length; lia). f_equal. f_equal. rewrite firstn_length. lia.
    - left. rewrite M. cbn [pfx]. unfold len. rewrite firstn_length, skipn_length. lia. }
  cbn [buf_step]. destruct (linear_get_ok b _ 0 R) as [b2 [r [d [G [G1 [G2 [_ [_ [_ G3]]]]]]]]].
  rewrite G. set (c := firstn (N.to_nat (bused b) - 4) (skipn 4 w)) in *. replace (0 <=? len c) with true in G3 by lia. destruct G3 as [-> [-> _]].
  rewrite <- G2, (load_ok b2 c 0) by (auto; lia). cbn [obind skipn N.to_nat]. rewrite G2, M. cbn [pfx]. eauto.
Qed.

Definition ans_ok (ans : list (bool * rdans)) : Prop := Forall (fun x => rdans_ok (snd x)) ans.

(* Every reachable state is described by rinv. *)
Lemma read_run_inv w ans : forall b s, rinv w b s -> init_sizes (binit b) -> ans_ok ans ->
  exists b' ns s', read_run ans b s = Ok (b', ns, s') /\ rinv w b' s' /\ binit b' = binit b.
Proof.
  induction ans as [|[ao a] ans IH]; intros b s I IS AK; cbn [read_run].
  - eauto 10.
  - inversion AK as [|? ? K1 K2]; subst. cbn [snd] in K1.
    destruct (read_step w ao a b s I IS K1) as [b1 [n [s1 [E [I1 [B1 _]]]]]]. rewrite E. cbn [obind].
    destruct (IH b1 s1 I1) as [b2 [ns [s2 [E2 [I2 B2]]]]]; [rewrite B1; auto|auto|].
    rewrite E2. cbn [obind]. exists b2, (n :: ns), s2. split; auto. split; auto. congruence.
Qed.

(* C20/C23 safety: whatever arrives, however fragmented, and whatever fails: the buffer is complete exactly when it holds
   precisely the announced number of bytes, and its data are then the bytes after the prefix. *)
Lemma read_safety_lemma : forall ao i b w ans,
  init_ok i -> linear_create ao PREFIX i = Ok (inl b) -> ans_ok ans ->
  exists b' ns s' cpl, read_run ans b w = Ok (b', ns, s') /\ linear_is_complete b' = Ok cpl /\
    (exists j, s' = skipn j w /\ (j <= length w)%nat /\ bused b' = N.of_nat j /\
      (cpl = true <-> (4 <= j)%nat /\ announced w = Some (N.of_nat j)) /\
      (cpl = true -> exists b'', buf_step b' (OGet 0) =
         Ok (b'', {| ret := 0; rmem := Some 4; rpos := 0; rdata := Some (map Some (firstn (j - 4) (skipn 4 w))) |}))).
Proof.
  intros ao i b w ans I E AK. destruct (create_rinv ao i b w I E) as [R B].
  destruct (read_run_inv w ans b w R) as [b' [ns [s' [E2 [I2 B2]]]]]; [rewrite B; apply I|auto|].
  pose proof (rinv_complete w b' s' I2) as C.
  exists b', ns, s'. eexists. split; [exact E2|]. split; [exact C|].
  pose proof I2 as [j [S [J [U _]]]]. exists j. split; auto. split; auto. split; auto.
  assert (X : match announced w with Some p => (4 <=? bused b') && (bused b' =? p) | None => false end = true
     <-> (4 <= j)%nat /\ announced w = Some (N.of_nat j)).
  { destruct (announced w); split; intro H; try discriminate; try (destruct H; discriminate).
    - split; [lia|]. f_equal. lia.
    - destruct H as [H1 H2]. injection H2 as H2. lia. }
  split; [exact X|]. intro H. apply X in H.
  destruct (rinv_get w b' s' I2) as [b2 G]; [lia|]. exists b2. rewrite G, U, Nat2N.id. reflexivity.
Qed.

(* C20: delivery.  [rest] is what follows the message on the stream; it must be empty unless the buffer allocates exactly. *)
Definition room (b : lbuf) (n : N) : Prop :=
  n <= allocated b \/
  (istep (binit b) <> 0 /\ (ilimit (binit b) = 0 \/ n <= ilimit (binit b)) /\
   istep (binit b) * ((n + istep (binit b) - 1) / istep (binit b)) < 2 ^ 63).

Definition exact_alloc (b : lbuf) (n : N) : Prop :=
  istep (binit b) = 1 /\ allocated b <= n.

Lemma announced_message p rest : 4 + len p < 2 ^ 32 -> announced (message p ++ rest) = Some (4 + len p).
Proof.
  intro H. unfold message. destruct (le32_bytes_inv _ H) as [a [b [c [d [E1 E2]]]]]. rewrite E1. cbn. rewrite E2. auto.
Qed.

Lemma message_len p : length (message p) = (4 + length p)%nat.
Proof. unfold message. rewrite app_length, le32_bytes_len. auto. Qed.

Definition dinv (p rest : bytes) (b : lbuf) (s : bytes) : Prop :=
  rinv (message p ++ rest) b s /\ valid_init (binit b) /\ init_sizes (binit b) /\
  bused b <= 4 + len p /\
  (rest = [] \/ exact_alloc b (4 + len p)) /\
  (if bused b <? 4 then room b (4 + len p) else 4 + len p <= allocated b).

Lemma deliver_step p rest a b s :
  4 + len p < 2 ^ 32 -> dinv p rest b s ->
  (match a with RGive k => k <> 0 | RErr e => (0 < e)%Z end) ->
  exists b' n s', sid_buf_read true a b s = Ok (b', n, s') /\ dinv p rest b' s' /\
    (exact_alloc b (4 + len p) -> exact_alloc b' (4 + len p)) /\ binit b' = binit b /\
    (bused b = 4 + len p -> n = (- EXFULL)%Z /\ b' = b) /\
    (bused b < 4 + len p ->
     match a with
     | RErr e => n = (- e)%Z /\ b' = b
     | RGive _ => (0 < n)%Z /\ Z.of_N (bused b') = (Z.of_N (bused b) + n)%Z
     end).
Proof.
  intros H [I [V [IS [UN [EX RM]]]]] AK.
  destruct (read_step _ true a b s I IS) as [b' [n [s' [E [I' [B' K]]]]]]; [destruct a; auto; exact Logic.I|].
  exists b', n, s'. split; auto. cbv zeta in K. rewrite (announced_message p rest H) in K.
  pose proof (rinv_complete _ _ _ I) as C. rewrite (announced_message p rest H) in C.
  destruct K as [K1 K2].
  destruct (N.eq_dec (bused b) (4 + len p)) as [D|D].
  { assert (CT : linear_is_complete b = Ok true) by (rewrite C; f_equal; lia).
    destruct (K1 CT) as [-> [-> ->]]. split; [repeat split; auto; apply IS|]. split; [auto|]. split; [auto|]. split; [auto|lia]. }
  assert (CF : linear_is_complete b = Ok false) by (rewrite C; f_equal; lia).
  specialize (K2 CF). clear K1. destruct a as [k|e].
  2:{ destruct K2 as [-> [-> ->]]. split; [repeat split; auto; apply IS|]. split; [auto|]. split; [auto|]. split; [lia|auto]. }
  destruct K2 as [K2 [K3 [_ K4]]].
  pose proof I as [j [S [J [U [M [A4 [JA [A [t T]]]]]]]]].
  assert (LS : len s = N.of_nat (length (message p ++ rest)) - bused b) by (unfold len; subst s; rewrite skipn_length; lia).
  rewrite app_length, message_len in LS.
  set (got := N.min (N.min k (allocated b - bused b)) (len s)) in *.
  assert (CAP : bused b < allocated b).
  { destruct (N.ltb_spec (bused b) 4); lia. }
  assert (G0 : got <> 0) by (unfold len in *; lia).
  specialize (K4 G0).
  assert (GN : bused b + got <= 4 + len p).
  { destruct EX as [-> |[_ EX]]; [cbn [length] in LS; unfold len in *; lia|].
    destruct (N.ltb_spec (bused b) 4); unfold len in *; lia. }
  replace (4 + len p =? 0) with false in K4 by lia. replace (4 + len p <? 4) with false in K4 by lia.
  assert (Q : n = Z.of_N got /\ (exact_alloc b (4 + len p) -> exact_alloc b' (4 + len p)) /\
              (if bused b' <? 4 then room b' (4 + len p) else 4 + len p <= allocated b')).
  { destruct (N.leb_spec 4 (bused b')) as [L4|L4].
    - replace (bused b' <? 4) with false by lia.
      destruct (N.ltb_spec (bused b) 4) as [B4|B4].
      + destruct (linear_realloc true (with_used b (bused b')) (4 + len p) false) as [b2 r] eqn:RR.
        pose proof RR as RR2. apply realloc_ok_iff in RR; [|destruct IS as [? [? ?]]; cbn [with_used binit]; pw; lia|exact V].
        cbn [with_used binit] in RR.
        assert (RZ : r = 0%Z).
        { apply RR. destruct RM as [RM|[R1 [R2 R3]]]; [left; exact RM|right; repeat split; auto]. }
        subst r. destruct K4 as [-> K4]. split; [reflexivity|].
        pose proof RR2 as RR3. apply realloc_grow in RR2; [|destruct IS as [? [? ?]]; cbn [with_used binit]; pw; lia|exact A].
        destruct RR2 as [[_ [G1 _]]|[G1 _]]; [|lia]. split; [|lia].
        intros [EX1 EX2].
        split; [congruence|]. rewrite K4.
        unfold linear_realloc in RR3. rewrite realloc_size_false in RR3
          by (destruct IS as [? [? ?]]; cbn [with_used binit]; pw; lia).
        change (allocated (with_used b (bused b'))) with (allocated b) in RR3.
        cbn [with_used binit] in RR3. rewrite EX1 in RR3.
        destruct (N.leb_spec (4 + len p) (allocated b)) as [Y|Y].
        * injection RR3 as <-. change (allocated (with_used b (bused b'))) with (allocated b). lia.
        * change (1 =? 0) with false in RR3. cbv iota zeta in RR3.
          rewrite N.div_1_r, N.mul_1_l in RR3.
          destruct (negb _ && _); [inversion RR3|]. destruct (granted true _); [|inversion RR3].
          apply (f_equal fst) in RR3. cbn [fst] in RR3. rewrite <- RR3. unfold allocated, with_mem; cbn [bmem]. rewrite app_length, firstn_length, repeat_length.
          cbn [with_used bmem]. unfold allocated in Y. lia.
      + destruct K4 as [-> K4]. split; auto. rewrite K4. split; [|auto].
        intros [EX1 EX2]. split; congruence.
    - destruct K4 as [-> K4]. split; auto. replace (bused b' <? 4) with true by lia.
      replace (bused b <? 4) with true in * by lia.
      split; [|unfold room in *; rewrite K4, B'; auto].
      intros [EX1 EX2]. split; congruence. }
  destruct Q as [-> [Q1 Q2]].
  split; [split; [auto|]; rewrite B'; repeat split; auto; try apply IS; try lia; destruct EX; auto|].
  split; [auto|]. split; [auto|]. split; [lia|]. intros _. lia.
Qed.

Lemma deliver_run p rest ans : 4 + len p < 2 ^ 32 ->
  Forall (fun a => match a with RGive k => k <> 0 | RErr e => (0 < e)%Z end) ans ->
  forall b s, dinv p rest b s ->
  exists b' ns s', read_run (map (pair true) ans) b s = Ok (b', ns, s') /\ dinv p rest b' s'.
Proof.
  intros H F. induction F as [|a ans F1 F2 IH]; intros b s D; cbn [map read_run].
  - eauto.
  - destruct (deliver_step p rest a b s H D F1) as [b1 [n [s1 [E [D1 _]]]]]. rewrite E. cbn [obind].
    destruct (IH b1 s1 D1) as [b2 [ns [s2 [E2 D2]]]]. rewrite E2. cbn [obind]. eauto.
Qed.

Definition creatable (i : bufinit) (n : N) : Prop :=
  istep i <> 0 /\ (ilimit i = 0 \/ n <= ilimit i) /\ istep i * ((n + istep i - 1) / istep i) < 2 ^ 63.

Lemma deliver_lemma : forall i b p rest ans,
  init_ok i -> linear_create true PREFIX i = Ok (inl b) -> 4 + len p < 2 ^ 32 -> creatable i (4 + len p) ->
  (rest = [] \/ (isize i <= len p /\ istep i = 1)) ->
  Forall (fun a => match a with RGive k => k <> 0 | RErr e => (0 < e)%Z end) ans ->
  exists b' ns s' done, read_run (map (pair true) ans) b (message p ++ rest) = Ok (b', ns, s') /\
    message p ++ rest = firstn done (message p) ++ s' /\ (done <= length (message p))%nat /\
    linear_is_complete b' = Ok (done =? length (message p))%nat /\
    (done = length (message p) -> s' = rest /\ exists b'', buf_step b' (OGet 0) =
       Ok (b'', {| ret := 0; rmem := Some 4; rpos := 0; rdata := Some (map Some p) |})) /\
    (* and the next read makes progress until then *)
    (forall k, k <> 0 -> (done < length (message p))%nat -> exists b'' n s'', sid_buf_read true (RGive k) b' s' = Ok (b'', n, s'') /\
       (0 < n)%Z /\ Z.of_N (bused b'') = (Z.of_nat done + n)%Z).
Proof.
  intros i b p rest ans I E H C X F. destruct (create_rinv true i b (message p ++ rest) I E) as [R B].
  destruct (create_inv _ _ _ _ I E) as [[V [M [_ VI]]] [_ [BI [U _]]]].
  assert (D : dinv p rest b (message p ++ rest)).
  { split; auto. split; auto. split; [rewrite B; apply I|]. split; [lia|]. rewrite U. change (0 <? 4) with true. cbv iota.
    split; [|right; rewrite B; exact C].
    destruct X as [X|[X1 X2]]; auto. right. split; [rewrite B; auto|].
    clear - E I X1. unfold linear_create in E. destruct (check_buf i) as [v|]; [|discriminate]. cbn [obind] in E.
    destruct v; [|discriminate]. cbn [negb] in E.
    destruct (linear_realloc _ _ _ _) as [b1 r] eqn:RR. apply realloc_force in RR; [|unfold allocated; cbn; pw; lia].
    rewrite linear_needed_ok in RR by apply I. cbn [pfx] in RR.
    destruct RR as [[-> [R1 _]]|[R1 [_ _]]].
    - cbn in E. injection E as <-. lia.
    - replace (r <? 0)%Z with true in E by lia. discriminate. }
  destruct (deliver_run p rest ans H F b _ D) as [b' [ns [s' [E2 D2]]]].
  pose proof D2 as [I2 [V2 [IS2 [UN [EX RM]]]]].
  pose proof I2 as [j [S [J [UJ _]]]].
  assert (JL : (j <= length (message p))%nat) by (rewrite message_len; unfold len in *; lia).
  exists b', ns, s', j. split; auto. split.
  { subst s'. rewrite <- (firstn_skipn j (message p ++ rest)) at 1. f_equal. rewrite firstn_app.
    replace (j - length (message p))%nat with 0%nat by lia. cbn [firstn]. apply app_nil_r. }
  split; auto. split.
  { rewrite (rinv_complete _ _ _ I2), (announced_message p rest H). f_equal. rewrite message_len in *. unfold len in *. lia. }
  split.
  - intros ->. split; [subst s'; apply app_skip; auto|].
    destruct (rinv_get _ _ _ I2) as [b2 G]; [rewrite UJ, message_len; lia|]. exists b2. rewrite G.
    repeat f_equal. rewrite UJ, message_len. unfold message. rewrite <- app_assoc.
    rewrite app_skip by (rewrite le32_bytes_len; auto).
    apply app_first. lia.
  - intros k K L. destruct (deliver_step p rest (RGive k) b' s' H D2 K) as [b2 [n [s2 [E3 [_ [_ [_ [_ P]]]]]]]].
    exists b2, n, s2. split; auto. rewrite message_len in L. specialize (P ltac:(unfold len in *; lia)). 
    destruct P. split; auto. lia.
Qed.

(* C23: error codes. *)
Lemma read_error_lemma : forall ao i b w ans b' ns s',
  init_ok i -> linear_create ao PREFIX i = Ok (inl b) -> ans_ok ans -> read_run ans b w = Ok (b', ns, s') ->
  linear_is_complete b' = Ok false ->
  (* end of stream inside a message *)
  (s' = [] -> forall ao' k, exists b'', sid_buf_read ao' (RGive k) b' [] =
     Ok (b'', if bused b' =? 0 then 0%Z else (- EBADMSG)%Z, [])) /\
  (* a prefix announcing less than itself *)
  (forall q, announced w = Some q -> 0 < q < 4 -> forall ao' k b'' n s'', sid_buf_read ao' (RGive k) b' s' = Ok (b'', n, s'') ->
     4 <= bused b'' -> bused b' < bused b'' -> n = (- EBADE)%Z).
Proof.
  intros ao i b w ans b' ns s' I E AK RUN CF. destruct (create_rinv ao i b w I E) as [R B].
  destruct (read_run_inv w ans b w R) as [b1 [ns1 [s1 [E2 [I2 B2]]]]]; [rewrite B; apply I|auto|].
  rewrite RUN in E2. injection E2 as <- <- <-.
  assert (IS : init_sizes (binit b')) by (rewrite B2, B; apply I).
  split.
  - intros -> ao' k. destruct (read_step w ao' (RGive k) b' [] I2 IS Logic.I) as [b2 [n [s2 [E3 [_ [_ [_ K]]]]]]].
    specialize (K CF). cbv zeta in K. destruct K as [_ [K2 [K3 _]]]. change (len []) with 0 in *.
    rewrite N.min_0_r in *. destruct (K3 eq_refl) as [-> ->]. subst s2. exists b'. exact E3.
  - intros q A Q ao' k b'' n s'' E3 L4 LT.
    destruct (read_step w ao' (RGive k) b' s' I2 IS Logic.I) as [b2 [n2 [s2 [E4 [_ [_ [_ K]]]]]]].
    rewrite E3 in E4. injection E4 as <- <- <-. specialize (K CF). cbv zeta in K. rewrite A in K.
    destruct K as [K1 [_ [_ K4]]]. rewrite K1 in LT. specialize (K4 ltac:(lia)).
    replace (4 <=? bused b'') with true in K4 by lia. replace (q =? 0) with false in K4 by lia.
    replace (q <? 4) with true in K4 by lia. exact K4.
Qed.

(* ---- Writing ---- *)

Lemma len_skipn (n : N) (w : bytes) : len (skipn (N.to_nat n) w) = len w - n.
Proof. unfold len. rewrite skipn_length. lia. Qed.

Lemma write_all_gen (buf : Type) (wr : wrans -> buf -> N -> outcome (buf * Z * bytes)) (Inv : N -> buf -> Prop) (W : bytes) :
  (forall a b pos, Inv pos b -> pos <= len W ->
     if pos =? len W then exists b', wr a b pos = Ok (b', (- ENODATA)%Z, []) /\ Inv pos b'
     else exists b', wr a b pos = Ok (b', fst (sys_write a (skipn (N.to_nat pos) W)), snd (sys_write a (skipn (N.to_nat pos) W))) /\
          forall q, pos <= q -> Inv q b') ->
  forall ans b pos, Inv pos b -> pos <= len W -> Forall wrans_ok ans ->
  exists b' r out, write_all buf wr ans b pos = Ok (b', r, out) /\
    write_all_spec ans (skipn (N.to_nat pos) W) r out.
Proof.
  intros WR ans. induction ans as [|a ans IH]; intros b pos I L F; cbn [write_all].
  - specialize (WR (WErr EAGAIN) b pos I L). destruct (N.eqb_spec pos (len W)) as [D|D].
    + destruct WR as [b' [-> _]]. cbn. eexists _, _, _. split; [reflexivity|]. exists [].
      rewrite skipn_all2 by (unfold len in *; lia). split; [symmetry; apply app_nil_r|reflexivity].
    + destruct WR as [b' [-> _]]. cbn. eexists _, _, _. split; [reflexivity|]. exists (skipn (N.to_nat pos) W).
      pose proof (len_skipn pos W). split; auto. split; [|cbn; lia]. intro X. rewrite X in H. unfold len in *. cbn in H. lia.
  - inversion F as [|? ? F1 F2]; subst.
    specialize (WR a b pos I L). destruct (N.eqb_spec pos (len W)) as [D|D].
    + destruct WR as [b' [-> _]]. cbn. eexists _, _, _. split; [reflexivity|]. exists [].
      rewrite skipn_all2 by (unfold len in *; lia). split; [symmetry; apply app_nil_r|reflexivity].
    + destruct WR as [b' [-> I']]. pose proof (len_skipn pos W) as LW. cbn [obind].
      destruct a as [k|e]; cbn [sys_write fst snd].
      * set (n := Nat.min (N.to_nat k) (length (skipn (N.to_nat pos) W))) in *.
        replace (Z.of_nat n <? 0)%Z with false by lia.
        assert (NL : N.of_nat n <= len W - pos) by (unfold len in *; lia).
        destruct (IH b' (pos + Z.to_N (Z.of_nat n))) as [b2 [r [out [E [rest [S1 S2]]]]]]; [apply I'; lia|lia|auto|].
        rewrite E. cbn [obind]. eexists _, _, _. split; [reflexivity|].
        assert (SK : skipn (N.to_nat (pos + Z.to_N (Z.of_nat n))) W = skipn n (skipn (N.to_nat pos) W)).
        { replace (N.to_nat (pos + Z.to_N (Z.of_nat n))) with (N.to_nat pos + n)%nat by lia.
          symmetry. apply skipn_add. }
        exists rest. split.
        { rewrite <- app_assoc, <- S1, SK, firstn_skipn. auto. }
        destruct r as [z|].
        -- destruct (z =? 0)%Z; auto. destruct S2 as [e [H1 [H2 H3]]]. exists e. split; auto. split; auto. right; auto.
        -- destruct S2 as [S2 S3]. split; auto. cbn [takes]. rewrite SK in S3.
           pose proof (len_skipn (N.of_nat n) (skipn (N.to_nat pos) W)) as X. rewrite Nat2N.id in X. rewrite X in S3.
           destruct (N.eqb_spec k 0); [lia|]. unfold len in *. lia.
      * destruct F1 as [F1 F1']. replace (- e <? 0)%Z with true by lia.
        destruct (Z.eqb_spec (- e) (- ENODATA)); [lia|].
        destruct (Z.eqb_spec (- e) (- EAGAIN)) as [EA|EA]; cbn [orb].
        -- destruct (IH b' pos (I' pos (N.le_refl _)) L F2) as [b2 [r [out [E [rest [S1 S2]]]]]].
           rewrite E. eexists _, _, _. split; [reflexivity|]. exists rest. split; auto.
           destruct r as [z|]; auto. destruct (z =? 0)%Z; auto. destruct S2 as [e' [H1 [H2 H3]]]. exists e'. split; auto. split; auto. right; auto.
        -- destruct (Z.eqb_spec (- e) (- EINTR)) as [EI|EI]; cbn [orb].
           ++ destruct (IH b' pos (I' pos (N.le_refl _)) L F2) as [b2 [r [out [E [rest [S1 S2]]]]]].
              rewrite E. eexists _, _, _. split; [reflexivity|]. exists rest. split; auto.
              destruct r as [z|]; auto. destruct (z =? 0)%Z; auto. destruct S2 as [e' [H1 [H2 H3]]]. exists e'. split; auto. split; auto. right; auto.
           ++ eexists _, _, _. split; [reflexivity|]. exists (skipn (N.to_nat pos) W). split; auto.
              replace (- e =? 0)%Z with false by lia. exists e. split; auto. split; [left; auto|]. lia.
Qed.

Lemma all_some_map d : all_some (map Some d) = Some d.
Proof. induction d as [|x d IH]; cbn; auto. rewrite IH. auto. Qed.

Definition linear_wire (b : lbuf) (c : bytes) : bytes := wire (bmode b) (bused b =? 0) c.

Lemma linear_wire_len b c : lrep b c -> len (linear_wire b c) = bused b.
Proof.
  intros [_ [U _]]. unfold linear_wire, wire. destruct (N.eqb_spec (bused b) 0) as [Z|Z]; [rewrite Z; reflexivity|].
  destruct U as [U|[U ->]]; [|lia]. destruct (bmode b); cbn [pfx] in U; [lia|].
  rewrite len_app. unfold len at 1. rewrite le32_bytes_len. lia.
Qed.

Lemma linear_write_step a b c pos :
  lrep b c -> pos <= bused b ->
  if pos =? bused b then exists b', linear_write a b pos = Ok (b', (- ENODATA)%Z, []) /\ lrep b' c /\ bused b' = bused b /\ bmode b' = bmode b
  else exists b', linear_write a b pos = Ok (b', fst (sys_write a (skipn (N.to_nat pos) (linear_wire b c))),
                                             snd (sys_write a (skipn (N.to_nat pos) (linear_wire b c)))) /\
       lrep b' c /\ bused b' = bused b /\ bmode b' = bmode b.
Proof.
  intros R L. unfold linear_write. destruct (N.eqb_spec pos (bused b)) as [D|D]; [eauto 10|].
  replace (bused b <? pos) with false by lia.
  assert (X : exists b', match bmode b with PREFIX => linear_update_prefix b | PLAIN => Ok b end = Ok b' /\
     lrep b' c /\ bused b' = bused b /\ bmode b' = bmode b /\ exists t, bmem b' = map Some (linear_wire b c) ++ t).
  { pose proof (lrep_len _ _ R) as LL. unfold linear_wire, wire. replace (bused b =? 0) with false by lia.
    destruct R as [[h [t [H1 H2]]] [U A]]. destruct U as [U|[U ->]]; [|lia].
    destruct (bmode b) eqn:M; cbn [pfx] in *.
    - exists b. split; auto. split; [split; [exists h, t; rewrite M; auto|split; auto; rewrite M; auto]|].
      split; auto. split; auto. exists t. destruct h; [auto|cbn in H1; lia].
    - unfold linear_update_prefix, store. unfold allocated in *.
      change (length (map Some (le32_bytes (wrap32 (bused b))))) with 4%nat.
      replace (_ <=? _) with true by (rewrite H2, !app_length, map_length in *; lia).
      cbn [obind firstn N.to_nat app Nat.add]. eexists. split; [reflexivity|].
      rewrite H2 at 1. rewrite (app_skip h) by lia.
      unfold with_mem, lrep, allocated; cbn [bmode bmem bused]. rewrite M. cbn [pfx].
      split; [split; [|split; auto]|].
      + exists (map Some (le32_bytes (wrap32 (bused b)))), t. split; auto.
      + rewrite app_length. rewrite H2, !app_length in A. cbn [map length le32_bytes].
        rewrite !app_length. cbn [length]. lia.
      + split; auto. split; auto. exists t. rewrite U, map_app, <- app_assoc. rewrite H2, app_skip by lia. auto. }
  destruct X as [b' [-> [R' [U' [M' [t T]]]]]]. cbn [obind].
  pose proof (linear_wire_len _ _ R) as LW.
  assert (Y : load b' pos (bused b' - pos) = Ok (map Some (skipn (N.to_nat pos) (linear_wire b c)))).
  { unfold load. rewrite U'. replace (bused b - pos =? 0) with false by lia.
    pose proof (lrep_used _ _ R'). replace (pos + (bused b - pos) <=? allocated b') with true by lia. f_equal.
    rewrite T, skipn_app, map_length. unfold len in LW.
    replace (N.to_nat pos - length (linear_wire b c))%nat with 0%nat by lia. cbn [skipn].
    rewrite <- map_skipn'. apply app_first. rewrite map_length, skipn_length. lia. }
  rewrite Y. cbn [obind]. rewrite all_some_map.
  destruct (sys_write a (skipn (N.to_nat pos) (linear_wire b c))) as [n out]. eauto 10.
Qed.

Lemma linear_write_all_lemma : forall ao m i b ops b' rs c ans,
  init_ok i -> linear_create ao m i = Ok (inl b) -> Forall (op_ok m) ops -> buf_run b ops = Ok (b', rs) ->
  buf_specs m [] ops rs c -> Forall wrans_ok ans ->
  exists b'' r out, write_all lbuf linear_write ans b' 0 = Ok (b'', r, out) /\
    write_all_spec ans (wire m (bused b' =? 0) c) r out.
Proof.
  intros ao m i b ops b' rs c ans I E F R SP AK. destruct (create_inv _ _ _ _ I E) as [V _].
  destruct (buf_run_ok m ops b [] V F) as [b1 [rs1 [c1 [R1 [V' [S L]]]]]].
  rewrite R in R1. injection R1 as <- <-.
  assert (c1 = c).
  { clear - S SP. revert c SP. induction S as [c0|c0 o r c1 ops rs c2 S1 S2 IH]; intros c SP; inversion SP as [|? ? ? c1' ? ? ? X1 X2]; subst; auto.
    apply IH. replace c1 with c1'; auto.
    clear - S1 X1. rename S1 into S, X1 into S1. destruct o; cbn [buf_spec] in *.
      - destruct S as [[A1 [-> _]]|[A1 ->]]; destruct S1 as [[B1 [-> _]]|[B1 ->]]; auto; lia.
      - destruct S as [[A1 [-> _]]|[A1 ->]]; destruct S1 as [[B1 [-> _]]|[B1 ->]]; auto; lia.
      - destruct (pos <=? len c0); destruct S as [_ ->], S1 as [_ ->]; auto.
      - destruct p as [z|]; [|destruct S as [_ ->], S1 as [_ ->]; auto].
        destruct (z <? 0)%Z; [destruct S as [_ ->], S1 as [_ ->]; auto|].
        destruct (_ <=? len c0); [destruct S as [-> _], S1 as [-> _]|destruct S as [_ ->], S1 as [_ ->]]; auto.
      - destruct S as [-> _], S1 as [-> _]; auto.
      - destruct i; [|destruct S as [_ ->], S1 as [_ ->]; auto].
        destruct S as [[A1 [-> _]]|[A1 [_ ->]]], S1 as [[B1 [-> _]]|[B1 [_ ->]]]; auto; contradiction.
      - destruct S as [-> _], S1 as [-> _]; auto. }
  subst c1.
  set (W := wire m (bused b' =? 0) c).
  assert (LW : len W = bused b').
  { pose proof (linear_wire_len b' c (proj1 V')) as X. unfold linear_wire in X. destruct V' as [_ [M _]]. rewrite M in X. exact X. }
  destruct (write_all_gen lbuf linear_write (fun _ x => lrep x c /\ bused x = bused b' /\ bmode x = m) W) with (ans := ans) (b := b') (pos := 0)
    as [b2 [r [out [E2 S2]]]]; auto.
  - intros a x pos [X1 [X2 X3]] LP. pose proof (linear_write_step a x c pos X1 ltac:(lia)) as Y.
    unfold linear_wire in Y. rewrite X2, X3 in Y. fold W in Y. rewrite LW.
    destruct (pos =? bused b').
    + destruct Y as [x' [Y1 [Y2 [Y3 Y4]]]]. eauto 10.
    + destruct Y as [x' [Y1 [Y2 [Y3 Y4]]]]. eauto 10.
  - split; [apply V'|]. split; auto. apply V'.
  - lia.
  - eauto.
Qed.
