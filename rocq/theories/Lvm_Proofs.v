From Verif Require Import Base Kvs_Model Tok_Model Tok_Spec Tok_Proofs UtilStr_Model UtilStr_Spec UtilStr_Proofs UtilStr_Proofs2 UbrKey_Model UbrKey_Spec UbrKey_Proofs UbrDb_Model UbrPerm_Spec UbrPerm_Proofs UbrRec_Model UbrRec_Proofs Lvm_Model Lvm_Spec.
Local Open Scope nat_scope.

Lemma skipn_skipn {A} (l : list A) a c : skipn a (skipn c l) = skipn (a + c) l.
Proof. revert c. induction l as [|x l IH]; intros c; [rewrite !skipn_nil; reflexivity|]. destruct c as [|c]; [rewrite Nat.add_0_r; reflexivity|]. rewrite Nat.add_succ_r. cbn [skipn]. apply IH. Qed.
(* Reading and writing single bytes *)
Lemma at_head (buf : bytes) c x r : skipn c buf = x :: r -> at_ buf c = Ok x.
Proof. intros H. unfold at_. rewrite <- (firstn_skipn c buf), H. assert (c < length buf) by (destruct (le_lt_dec (length buf) c) as [L|L]; [rewrite skipn_all2 in H by exact L; discriminate|exact L]).
  rewrite nth_error_app2; rewrite firstn_length_le by lia; [rewrite Nat.sub_diag; reflexivity|lia]. Qed.
Lemma skip_next (buf : bytes) c x r : skipn c buf = x :: r -> skipn (c + 1) buf = r.
Proof. intros H. rewrite Nat.add_comm, <- skipn_skipn, H. reflexivity. Qed.
Lemma skip_lt (buf : bytes) c x r : skipn c buf = x :: r -> c < length buf.
Proof. intros H. destruct (le_lt_dec (length buf) c) as [L|L]; [rewrite skipn_all2 in H by exact L; discriminate|exact L]. Qed.
Lemma put_one (buf : bytes) o v : o < length buf -> exists buf', put_bytes buf o [v] = Ok buf' /\ length buf' = length buf
  /\ firstn (o + 1) buf' = firstn o buf ++ [v] /\ (forall k, o < k -> skipn k buf' = skipn k buf).
Proof.
  intros H. unfold put_bytes. cbn [length]. replace (o + 1 <=? length buf) with true by (symmetry; apply Nat.leb_le; lia). eexists. split; [reflexivity|].
  assert (Lf : length (firstn o buf) = o) by (apply firstn_length_le; lia).
  split; [|split].
  - rewrite !app_length, Lf, skipn_length. cbn [length]. lia.
  - rewrite firstn_app, Lf. replace (o + 1 - o) with 1 by lia. rewrite firstn_all2 by (rewrite Lf; lia). cbn [app firstn]. reflexivity.
  - intros k Hk. rewrite skipn_app, Lf, skipn_all2 by (rewrite Lf; lia). replace (k - o) with (S (k - o - 1)) by lia. cbn [app skipn].
    rewrite skipn_skipn. f_equal. lia.
Qed.

(* What one call takes: the component, and what follows the single dash *)
Fixpoint unq (s : bytes) : bytes * bytes :=
  match s with
  | [] => ([], [])
  | x :: t =>
    match t with
    | [] => ([x], [])
    | y :: t' =>
      if Ascii.eqb x "-" then if Ascii.eqb y "-" then let (a, b) := unq t' in ("-"%char :: a, b) else ([], y :: t')
      else let (a, b) := unq t in (x :: a, b)
    end
  end.
Lemma unq_two x y t : unq (x :: y :: t) = if Ascii.eqb x "-" then if Ascii.eqb y "-" then let (a, b) := unq t in ("-"%char :: a, b) else ([], y :: t)
  else let (a, b) := unq (y :: t) in (x :: a, b).
Proof. reflexivity. Qed.
Lemma loop_unq : forall n s buf c o m fuel, length s <= n -> ~ In NUL s -> skipn c buf = s ++ NUL :: m -> o <= c -> length s < fuel ->
  exists buf' c' o', unquote_loop fuel buf c o = Ok (buf', c', o') /\ length buf' = length buf /\ firstn o' buf' = firstn o buf ++ fst (unq s)
    /\ o' = o + length (fst (unq s)) /\ o' <= c'
    /\ ((snd (unq s) = [] /\ skipn c' buf' = NUL :: m) \/ (snd (unq s) <> [] /\ skipn c' buf' = "-"%char :: snd (unq s) ++ NUL :: m)).
Proof.
  induction n as [|n IH]; intros s buf c o m fuel Ln Hs Sk Ho Lf.
  - destruct s; [|cbn in Ln; lia]. destruct fuel; [lia|]. cbn [app] in Sk. cbn [unquote_loop]. rewrite (at_head _ _ _ _ Sk). cbn [obind]. change (Ascii.eqb NUL NUL) with true. cbv iota.
    exists buf, c, o. cbn [unq fst snd length]. rewrite app_nil_r, Nat.add_0_r. split; [reflexivity|]. do 4 (split; [reflexivity || lia|]). left. split; [reflexivity|exact Sk].
  - destruct s as [|x t].
    { destruct fuel; [lia|]. cbn [app] in Sk. cbn [unquote_loop]. rewrite (at_head _ _ _ _ Sk). cbn [obind]. change (Ascii.eqb NUL NUL) with true. cbv iota.
      exists buf, c, o. cbn [unq fst snd length]. rewrite app_nil_r, Nat.add_0_r. split; [reflexivity|]. do 4 (split; [reflexivity || lia|]). left. split; [reflexivity|exact Sk]. }
    destruct fuel as [|fuel]; [lia|]. cbn [length] in Ln, Lf. cbn [unquote_loop]. rewrite (at_head _ _ _ _ Sk). cbn [obind].
    assert (Nx : Ascii.eqb x NUL = false) by (apply Ascii.eqb_neq; intros ->; apply Hs; left; reflexivity). rewrite Nx. cbv iota.
    pose proof (skip_next _ _ _ _ Sk) as Sk1. pose proof (skip_lt _ _ _ _ Sk) as Lt.
    assert (Ht : ~ In NUL t) by (intros X; apply Hs; right; exact X).
    assert (K : forall v s' c2, length s' <= n -> ~ In NUL s' -> skipn c2 buf = s' ++ NUL :: m -> c < c2 -> length s' < fuel ->
      exists buf' c' o', (let! b := put_bytes buf o [v] in unquote_loop fuel b c2 (o + 1)) = Ok (buf', c', o') /\ length buf' = length buf
        /\ firstn o' buf' = firstn o buf ++ v :: fst (unq s') /\ o' = o + S (length (fst (unq s'))) /\ o' <= c'
        /\ ((snd (unq s') = [] /\ skipn c' buf' = NUL :: m) \/ (snd (unq s') <> [] /\ skipn c' buf' = "-"%char :: snd (unq s') ++ NUL :: m))).
    { intros v s' c2 L1 H1 S1 C1 F1. destruct (put_one buf o v) as (b & P1 & P2 & P3 & P4); [lia|]. rewrite P1. cbn [obind].
      destruct (IH s' b c2 (o + 1) m fuel L1 H1) as (b' & c' & o' & E & Lb & F & Eo & Oc & R); [rewrite P4 by lia; exact S1|lia|exact F1|].
      exists b', c', o'. rewrite E. split; [reflexivity|]. split; [congruence|]. split; [rewrite F, P3, <- app_assoc; reflexivity|]. split; [lia|]. split; [exact Oc|exact R]. }
    destruct t as [|y t'].
    + cbn [app] in Sk1. rewrite (at_head _ _ _ _ Sk1). cbn [obind]. change (Ascii.eqb NUL NUL) with true. cbn [negb andb]. cbv iota.
      cbn [unq fst snd]. destruct (K x [] (c + 1)) as (b' & c' & o' & E & R); [cbn; lia|intros []|exact Sk1|lia|cbn in *; lia|]. exists b', c', o'. split; [exact E|exact R].
    + assert (Ny : Ascii.eqb y NUL = false) by (apply Ascii.eqb_neq; intros ->; apply Ht; left; reflexivity).
      cbn [app] in Sk1. rewrite (at_head _ _ _ _ Sk1). cbn [obind]. rewrite Ny. cbn [negb andb]. unfold DASH. rewrite unq_two. cbn [length] in *.
      destruct (Ascii.eqb x "-") eqn:Ex.
      * destruct (Ascii.eqb y "-") eqn:Ey.
        -- apply Ascii.eqb_eq in Ey. subst y. pose proof (skip_next _ _ _ _ Sk1) as Sk2.
           destruct (K "-"%char t' (c + 1 + 1)) as (b' & c' & o' & E & R); [lia|intros X; apply Ht; right; exact X|exact Sk2|lia|lia|].
           exists b', c', o'. rewrite E. split; [reflexivity|]. destruct (unq t'); exact R.
        -- exists buf, c, o. split; [reflexivity|]. split; [reflexivity|]. cbn [fst snd length]. rewrite app_nil_r. split; [reflexivity|]. split; [lia|]. split; [lia|].
           right. split; [discriminate|]. apply Ascii.eqb_eq in Ex. subst x. exact Sk.
      * destruct (K x (y :: t') (c + 1)) as (b' & c' & o' & E & R); [cbn [length]; lia|exact Ht|exact Sk1|lia|cbn [length]; lia|].
        exists b', c', o'. rewrite E. split; [reflexivity|]. destruct (unq (y :: t')); exact R.
Qed.
Lemma unquote_ok s buf c m : ~ In NUL s -> skipn c buf = s ++ NUL :: m ->
  exists buf' r, unquote buf c = Ok (buf', r) /\ length buf' = length buf
    /\ (exists j, firstn (c + length (fst (unq s)) + 1) buf' = firstn c buf ++ fst (unq s) ++ [NUL] /\ skipn (c + length (fst (unq s)) + 1) buf' = j)
    /\ skipn r buf' = snd (unq s) ++ NUL :: m
    /\ ((snd (unq s) <> [] /\ c + length (fst (unq s)) + 1 <= r) \/ (snd (unq s) = [] /\ c + length (fst (unq s)) <= r)).
Proof.
  intros Hs Sk. assert (Ls : length s < S (length buf)).
  { apply (f_equal (@length _)) in Sk. rewrite skipn_length, app_length in Sk. cbn [length] in Sk. lia. }
  destruct (loop_unq (length s) s buf c c m (S (length buf)) (le_n _) Hs Sk (le_n _) Ls) as (b & c' & o' & E & Lb & F & Eo & Oc & R).
  unfold unquote. rewrite E. cbn [obind].
  assert (Lo : o' < length b) by (destruct R as [(_ & R)|(_ & R)]; pose proof (skip_lt _ _ _ _ R); lia).
  destruct (put_one b o' NUL Lo) as (b2 & P1 & P2 & P3 & P4).
  assert (X : exists x, at_ b c' = Ok x /\ ((x = NUL /\ snd (unq s) = []) \/ (x = "-"%char /\ snd (unq s) <> []))).
  { destruct R as [(N & R)|(N & R)]; rewrite (at_head _ _ _ _ R); eexists; split; try reflexivity; [left|right]; split; (reflexivity || exact N). }
  destruct X as (x & X1 & X2). rewrite X1. cbn [obind]. rewrite P1. cbn [obind]. exists b2, (if Ascii.eqb x NUL then c' else c' + 1).
  split; [reflexivity|]. split; [congruence|]. split; [eexists; split; [|reflexivity]; rewrite <- Eo, P3, F, <- app_assoc; reflexivity|].
  rewrite <- Eo. destruct X2 as [(-> & N)|(-> & N)].
  - change (Ascii.eqb NUL NUL) with true. cbv iota. destruct R as [(_ & R)|(N' & _)]; [|contradiction]. rewrite N. split; [|right; split; [reflexivity|exact Oc]].
    destruct (Nat.eq_dec o' c') as [Q|Q]; [|rewrite P4 by lia; exact R].
    subst c'. cbn [app]. pose proof (skip_next _ _ _ _ R) as R2. rewrite <- (firstn_skipn (o' + 1) b2), P3, P4, R2 by lia.
    assert (Lf : length (firstn o' b) = o') by (apply firstn_length_le; lia).
    rewrite <- app_assoc, skipn_app, Lf, skipn_all2, Nat.sub_diag by (rewrite Lf; lia). reflexivity.
  - change (Ascii.eqb "-" NUL) with false. cbv iota. destruct R as [(N' & _)|(_ & R)]; [contradiction|]. split; [|left; split; [exact N|lia]].
    rewrite P4 by lia. exact (skip_next _ _ _ _ R).
Qed.
Lemma unq_nul s : ~ In NUL s -> ~ In NUL (fst (unq s)) /\ ~ In NUL (snd (unq s)).
Proof.
  assert (G : forall n s, length s <= n -> ~ In NUL s -> ~ In NUL (fst (unq s)) /\ ~ In NUL (snd (unq s))); [|intros H; exact (G (length s) s (le_n _) H)].
  induction n as [|n IH]; intros [|x [|y t]] L H; cbn [length] in L; try lia.
  { split; intros []. }
  { split; intros []. }
  { split; [exact H|intros []]. }
  rewrite unq_two.
  destruct (Ascii.eqb x "-") eqn:Ex.
  - destruct (Ascii.eqb y "-").
    + destruct (IH t) as (A & C); [lia|intros X; apply H; right; right; exact X|]. destruct (unq t). cbn [fst snd] in *. split; [intros [X|X]; [discriminate X|exact (A X)]|exact C].
    + split; [intros []|intros X; apply H; right; exact X].
  - destruct (IH (y :: t)) as (A & C); [cbn [length]; lia|intros X; apply H; right; exact X|]. destruct (unq (y :: t)). cbn [fst snd] in *.
    split; [intros [X|X]; [apply H; left; exact X|exact (A X)]|exact C].
Qed.
Lemma skip_text (P a : bytes) buf : firstn (length P + length a + 1) buf = P ++ a ++ [NUL] -> skipn (length P) buf = a ++ NUL :: skipn (length P + length a + 1) buf.
Proof.
  intros H. rewrite <- (firstn_skipn (length P + length a + 1) buf) at 1. rewrite H, <- app_assoc, skipn_app, skipn_all, Nat.sub_diag.
  cbn [app skipn]. rewrite <- app_assoc. reflexivity.
Qed.
(* the three components *)
Definition comp1 name := fst (unq name).
Definition comp2 name := fst (unq (snd (unq name))).
Definition comp3 name := fst (unq (snd (unq (snd (unq name))))).
Lemma components name : ~ In NUL name -> exists buf1 lv buf2 layer buf3 x,
  unquote (name ++ [NUL]) 0 = Ok (buf1, lv) /\ unquote buf1 lv = Ok (buf2, layer) /\ unquote buf2 layer = Ok (buf3, x)
  /\ string_at buf3 = Ok (comp1 name) /\ string_at (skipn lv buf3) = Ok (comp2 name) /\ string_at (skipn layer buf3) = Ok (comp3 name).
Proof.
  intros H. unfold comp1, comp2, comp3.
  assert (Keep : forall (b b' : bytes) k s m r, ~ In NUL s -> skipn r b = s ++ NUL :: m -> length b' = length b -> k <= r ->
     (exists j, firstn (r + length (fst (unq s)) + 1) b' = firstn r b ++ fst (unq s) ++ [NUL] /\ skipn (r + length (fst (unq s)) + 1) b' = j) ->
     forall a t, ~ In NUL a -> skipn k b = a ++ NUL :: t -> (k + length a + 1 <= r \/ (k + length a <= r /\ fst (unq s) = [])) ->
     exists t', skipn k b' = a ++ NUL :: t').
  { intros b b' k s m r Hs Sk Lb Kr (j & Fj & _) a t Ha Sa Hk.
    assert (Lr : r < length b) by (destruct s; cbn [app] in Sk; exact (skip_lt _ _ _ _ Sk)).
    assert (Lfr : length (firstn r b) = r) by (apply firstn_length_le; lia).
    assert (Lfk : length (firstn k b) = k) by (apply firstn_length_le; lia).
    assert (E : firstn (r + length (fst (unq s)) + 1) b' = firstn k b ++ skipn k (firstn r b) ++ fst (unq s) ++ [NUL]).
    { rewrite Fj. rewrite <- (firstn_skipn k (firstn r b)) at 1. rewrite firstn_firstn, Nat.min_l by exact Kr. rewrite <- app_assoc. reflexivity. }
    assert (S' : skipn k b' = (skipn k (firstn r b) ++ fst (unq s) ++ [NUL]) ++ skipn (r + length (fst (unq s)) + 1) b').
    { rewrite <- (firstn_skipn (r + length (fst (unq s)) + 1) b') at 1. rewrite E, skipn_app, app_length, Lfk.
      rewrite skipn_app, skipn_all2 by (rewrite Lfk; lia). rewrite Lfk, Nat.sub_diag. cbn [app skipn].
      replace (k - (k + length (skipn k (firstn r b) ++ fst (unq s) ++ [NUL]))) with 0 by lia. reflexivity. }
    rewrite S'.
    assert (M : skipn k (firstn r b) = firstn (r - k) (a ++ NUL :: t)) by (rewrite <- Sa, skipn_firstn_comm; reflexivity).
    rewrite M. destruct Hk as [Hk|(Hk & Es)].
    - rewrite firstn_app. rewrite firstn_all2 by lia. replace (r - k - length a) with (S (r - k - length a - 1)) by lia. cbn [firstn].
      rewrite <- !app_assoc. cbn [app]. eexists. reflexivity.
    - destruct (Nat.eq_dec (r - k) (length a)) as [Q|Q].
      + rewrite Q, firstn_app, firstn_all, Nat.sub_diag, Es. cbn [firstn app]. rewrite app_nil_r, <- app_assoc. cbn [app]. eexists. reflexivity.
      + rewrite firstn_app. rewrite firstn_all2 by lia. replace (r - k - length a) with (S (r - k - length a - 1)) by lia. cbn [firstn].
        rewrite <- !app_assoc. cbn [app]. eexists. reflexivity. }
  destruct (unq_nul name H) as (H1 & H2). destruct (unq_nul _ H2) as (H3 & H4). destruct (unq_nul _ H4) as (H5 & H6).
  destruct (unquote_ok name (name ++ [NUL]) 0 [] H eq_refl) as (b1 & lv & E1 & L1 & T1 & S1 & D1).
  destruct (unquote_ok _ b1 lv [] H2 S1) as (b2 & layer & E2 & L2 & T2 & S2 & D2).
  destruct (unquote_ok _ b2 layer [] H4 S2) as (b3 & x & E3 & L3 & T3 & S3 & D3).
  set (p1 := unq name) in *. set (p2 := unq (snd p1)) in *. set (p3 := unq (snd p2)) in *.
  exists b1, lv, b2, layer, b3, x. split; [exact E1|]. split; [exact E2|]. split; [exact E3|].
  assert (Text : forall (b : bytes) c a t, firstn (c + length a + 1) b = t ++ a ++ [NUL] -> length t = c -> skipn c b = a ++ NUL :: skipn (c + length a + 1) b).
  { intros b c a t F Lt. rewrite <- Lt in *. exact (skip_text t a b F). }
  destruct T1 as (j1 & F1 & _). pose proof (Text b1 0 (fst p1) [] F1 eq_refl) as X1. 
  assert (Lv : length (firstn lv b1) = lv) by (apply firstn_length_le; destruct (snd p1); cbn [app] in S1; pose proof (skip_lt _ _ _ _ S1); lia).
  pose proof T2 as T2'. destruct T2 as (j2 & F2 & _). pose proof (Text b2 lv (fst p2) _ F2 Lv) as X2.
  assert (Ly : length (firstn layer b2) = layer) by (apply firstn_length_le; destruct (snd p2); cbn [app] in S2; pose proof (skip_lt _ _ _ _ S2); lia).
  pose proof T3 as T3'. destruct T3 as (j3 & F3 & _). pose proof (Text b3 layer (fst p3) _ F3 Ly) as X3.
  assert (R12 : lv <= layer) by (destruct D2 as [(_ & D2)|(_ & D2)]; lia).
  (* the first component in b2 *)
  assert (Y1 : exists t, skipn 0 b2 = fst p1 ++ NUL :: t).
  { apply (Keep b1 b2 0 (snd p1) [] lv H2 S1 L2 (Nat.le_0_l _) T2' (fst p1) _ H1 X1).
    destruct D1 as [(_ & D1)|(N & D1)]; [left; exact D1|right]. split; [exact D1|]. unfold p2. rewrite N. reflexivity. }
  destruct Y1 as (t1 & Y1).
  assert (Z1 : exists t, skipn 0 b3 = fst p1 ++ NUL :: t).
  { apply (Keep b2 b3 0 (snd p2) [] layer H4 S2 L3 (Nat.le_0_l _) T3' (fst p1) _ H1 Y1).
    destruct D1 as [(_ & D1)|(N & D1)]; [left; lia|right]. split; [lia|]. unfold p3, p2. rewrite N. reflexivity. }
  assert (Z2 : exists t, skipn lv b3 = fst p2 ++ NUL :: t).
  { apply (Keep b2 b3 lv (snd p2) [] layer H4 S2 L3 R12 T3' (fst p2) _ H3 X2).
    destruct D2 as [(_ & D2)|(N & D2)]; [left; exact D2|right]. split; [exact D2|]. unfold p3. rewrite N. reflexivity. }
  destruct Z1 as (z1 & Z1). destruct Z2 as (z2 & Z2). rewrite skipn_O in Z1.
  split; [rewrite Z1; apply string_ok; exact H1|]. split; [rewrite Z2; apply string_ok; exact H3|rewrite X3; apply string_ok; exact H5].
Qed.

Lemma quoted_cons c s : quoted (c :: s) = (if Ascii.eqb c "-" then B "--" else [c]) ++ quoted s.
Proof. reflexivity. Qed.
Lemma unq_quoted s : unq (quoted s) = (s, []).
Proof.
  induction s as [|c s IH]; [reflexivity|]. rewrite quoted_cons. destruct (Ascii.eqb c "-") eqn:E.
  - apply Ascii.eqb_eq in E. subst c. change (B "--") with ["-"; "-"]%char. cbn [app]. rewrite unq_two. change (Ascii.eqb "-" "-") with true. cbv iota. rewrite IH. reflexivity.
  - cbn [app]. destruct (quoted s) as [|y t] eqn:Q.
    + injection IH as <-. reflexivity.
    + rewrite unq_two, E, IH. reflexivity.
Qed.
Lemma unq_sep s r : r <> [] -> no_dash_first r -> unq (quoted s ++ B "-" ++ r) = (s, r).
Proof.
  intros N D. induction s as [|c s IH].
  - cbn [quoted flat_map app]. destruct r as [|y t]; [contradiction|]. change (B "-") with ["-"%char]. cbn [app]. rewrite unq_two. change (Ascii.eqb "-" "-") with true. cbv iota.
    destruct (Ascii.eqb y "-") eqn:E; [|reflexivity]. apply Ascii.eqb_eq in E. subst y. destruct (D eq_refl).
  - rewrite quoted_cons. destruct (Ascii.eqb c "-") eqn:E.
    + apply Ascii.eqb_eq in E. subst c. change (B "--") with ["-"; "-"]%char. cbn [app]. rewrite unq_two. change (Ascii.eqb "-" "-") with true. cbv iota. cbn [app] in IH. rewrite IH. reflexivity.
    + cbn [app]. destruct (quoted s ++ B "-" ++ r) as [|y t] eqn:Q.
      * destruct (quoted s); discriminate Q.
      * rewrite unq_two, E, IH. reflexivity.
Qed.
Lemma quoted_first s : no_dash_first s -> s <> [] -> quoted s <> [] /\ no_dash_first (quoted s).
Proof.
  intros D N. destruct s as [|c s]; [contradiction|]. unfold no_dash_first in *. cbn [hd_error] in D. rewrite quoted_cons. destruct (Ascii.eqb c "-") eqn:E.
  - apply Ascii.eqb_eq in E. subst c. destruct (D eq_refl).
  - cbn [app]. split; [discriminate|]. cbn [hd_error]. exact D.
Qed.
Lemma quoted_nul s : ~ In NUL s -> ~ In NUL (quoted s).
Proof.
  intros H X. apply in_flat_map in X. destruct X as (c & Hc & X). destruct (Ascii.eqb c "-"); cbn in X; decompose [or] X; try discriminate; subst; contradiction.
Qed.
Lemma comps vg lv layer : lv_names vg lv layer -> let name := lvm_name vg lv layer in
  ~ In NUL name /\ comp1 name = vg /\ comp2 name = lv /\ comp3 name = match layer with Some l => l | None => [] end.
Proof.
  intros (A & C & Nv & Nl & Dv & Dl & HL) name. unfold name, comp1, comp2, comp3, lvm_name.
  set (r := quoted lv ++ match layer with Some l => B "-" ++ quoted l | None => [] end).
  assert (Nr : r <> [] /\ no_dash_first r).
  { destruct (quoted_first lv Dl Nl) as (Q1 & Q2). unfold r, no_dash_first in *. destruct (quoted lv); [contradiction|]. cbn [app hd_error] in *. split; [discriminate|exact Q2]. }
  rewrite (unq_sep vg r (proj1 Nr) (proj2 Nr)). cbn [fst snd]. unfold r. split; [|split; [reflexivity|]].
  - intros X. apply in_app_or in X. destruct X as [X|X]; [exact (quoted_nul _ A X)|]. apply in_app_or in X. destruct X as [[X|[]]|X]; [discriminate X|].
    apply in_app_or in X. destruct X as [X|X]; [exact (quoted_nul _ C X)|]. destruct layer as [l|]; [|destruct X]. apply in_app_or in X. destruct X as [[X|[]]|X]; [discriminate X|].
    destruct HL as (HL & _). exact (quoted_nul _ HL X).
  - destruct layer as [l|].
    + destruct HL as (Hn & Hl & Hd). destruct (quoted_first l Hd Hl) as (Q1 & Q2). rewrite (unq_sep lv (quoted l) Q1 Q2). cbn [fst snd]. rewrite unq_quoted. split; reflexivity.
    + rewrite app_nil_r, unq_quoted. split; reflexivity.
Qed.

(* The database *)
Lemma foreign_key u w m c : canonicalize_key (compose_key (get_spec (u_dev u) w (api_dom NS_DEVMOD) NS_DEVMOD c 0 (Some m) None)) = devmod_key (uid u) m c.
Proof. rewrite canon_blank by (right; reflexivity). reflexivity. Qed.
Lemma devmod_is u m c : record_key u m NS_DEVMOD c = devmod_key (uid u) m c.
Proof. reflexivity. Qed.
Lemma udev_is u m c : record_key u m NS_UDEV c = udev_var (number u) c.
Proof. reflexivity. Qed.
Lemma own_key u w n c : good_name n c -> canonicalize_key (compose_key (get_spec (u_dev u) w (api_dom n) n c 0 None None)) = record_key u w n c.
Proof.
  intros G. rewrite <- rec_key. destruct (get_same_lemma (u_dev u) w n c G) as (r & a & s & g & E & H). destruct (H 0) as (x & Ex & Ec).
  unfold kv_get_keys in Ex. rewrite (proj1 (good_bad n c) G) in Ex. apply some_inj in Ex.
  unfold kv_set_keys in E. rewrite (proj1 (good_bad n c) G) in E. apply some_inj in E.
  apply (f_equal (hd [])) in Ex. apply (f_equal (hd [])) in E. cbn [hd] in Ex, E. rewrite Ex, Ec. cbn [Nat.eqb]. rewrite <- E. reflexivity.
Qed.
Lemma lvm_nul : ~ In NUL MOD_LVM.
Proof. intros H. cbn in H. decompose [or] H; try discriminate; contradiction. Qed.
Lemma str_get_ok d u n c fm v : good_name n c -> lvm_reads d (canonicalize_key (compose_key (get_spec (u_dev u) MOD_LVM (api_dom n) n c 0 fm None))) v ->
  str_get d u MOD_LVM n c fm = Ok (Some v).
Proof.
  intros G (o & Ho & Hn & Hr & Hv & Hd). unfold str_get, kv_get. rewrite (proj1 (good_bad n c) G). unfold cmd_get_key_value. rewrite Ho.
  pose proof (proj1 (may_read_match o MOD_LVM Hn lvm_nul) Hr) as Hr'. clear Hr. rename Hr' into Hr. unfold granted, read_bit, flag in Hr. rewrite has_FRG_RD, has_SUB_RD, has_SUP_RD.
  assert (E : match mod_match (r_owner o) MOD_LVM with MOD_NO_MATCH => N.testbit (r_flags o) 5 | MOD_MATCH | MOD_CORE_MATCH => true
     | MOD_SUB_MATCH => N.testbit (r_flags o) 6 | MOD_SUP_MATCH => N.testbit (r_flags o) 7 end = true).
  { revert Hr; destruct (mod_match (r_owner o) MOD_LVM); auto. }
  rewrite E, Hd. cbn [fst]. rewrite string_ok by exact Hv. reflexivity.
Qed.
Lemma str_get_none d u n c fm : lvm_lacks d (canonicalize_key (compose_key (get_spec (u_dev u) MOD_LVM (api_dom n) n c 0 fm None))) ->
  str_get d u MOD_LVM n c fm = Ok None.
Proof.
  intros H. unfold str_get, kv_get. destruct (_ || _); [reflexivity|]. unfold cmd_get_key_value. unfold lvm_lacks in H. destruct (recs d _) as [o|]; [|reflexivity].
  rewrite (H o eq_refl). match goal with |- context [if ?b then _ else _] => destruct b end; reflexivity.
Qed.
Lemma str_set_ok d u n c v f : good_name n c -> N.testbit f 3 = false -> writable d MOD_LVM (record_key u MOD_LVM n c) ->
  exists d', str_set d u MOD_LVM n c v f = Ok (d', 0%Z) /\ sets [(record_key u MOD_LVM n c, new_rec u n MOD_LVM (Some (v ++ [NUL])) f)] d d'.
Proof.
  intros G F W. destruct (allowed_lemma d u MOD_LVM n c (Some (v ++ [NUL])) f G lvm_nul W) as (d' & E & R1 & _ & R2).
  exists d'. unfold str_set. rewrite E. cbn [obind]. split; [reflexivity|]. intros k. cbn [find fst]. destruct (key_eqb_spec (record_key u MOD_LVM n c) k) as [<-|N].
  - exact R1.
  - apply R2; [congruence|]. intros _. left. exact F.
Qed.
Lemma find_none l k : ~ In k (map fst l) -> find (fun p : bytes * rec => key_eqb (fst p) k) l = None.
Proof. intros H. destruct (find _ l) as [(a, r)|] eqn:E; [|reflexivity]. apply find_some in E. destruct E as (E & K). cbn [fst] in K. destruct (key_eqb_spec a k) as [->|]; [|discriminate K].
  destruct H. exact (in_map fst _ _ E). Qed.
Lemma sets_cons k r l d d1 d2 : sets [(k, r)] d d1 -> sets l d1 d2 -> ~ In k (map fst l) -> sets ((k, r) :: l) d d2.
Proof.
  intros A C N x. rewrite (C x), (A x). cbn [find fst]. destruct (key_eqb_spec k x) as [<-|]; [rewrite find_none by exact N; reflexivity|reflexivity].
Qed.
Lemma sets_app l1 l2 d d1 d2 : sets l1 d d1 -> sets l2 d1 d2 -> (forall k, In k (map fst l1) -> ~ In k (map fst l2)) -> sets (l1 ++ l2) d d2.
Proof.
  intros A C N x. rewrite (C x), (A x). assert (FA : forall l, find (fun p : bytes * rec => key_eqb (fst p) x) (l ++ l2) = match find (fun p => key_eqb (fst p) x) l with Some p => Some p | None => find (fun p => key_eqb (fst p) x) l2 end).
  { induction l as [|p l IH]; [reflexivity|]. cbn [app find]. destruct (key_eqb (fst p) x); [reflexivity|exact IH]. }
  rewrite FA. destruct (find _ l1) as [(a, r)|] eqn:E; [|reflexivity]. apply find_some in E. destruct E as (E & K). cbn [fst] in K. destruct (key_eqb_spec a x) as [->|]; [|discriminate K].
  rewrite find_none; [reflexivity|]. apply N. exact (in_map fst _ _ E).
Qed.
Definition entry (u : ucmd) (f : N) (e : kv_ns * bytes * bytes) : bytes * rec :=
  let '(n, c, v) := e in (record_key u MOD_LVM n c, new_rec u n MOD_LVM (Some (v ++ [NUL])) f).
Lemma str_sets_ok u f l : N.testbit f 3 = false -> Forall (fun e => good_name (fst (fst e)) (snd (fst e))) l -> NoDup (map fst (map (entry u f) l)) ->
  forall d, (forall k, In k (map fst (map (entry u f) l)) -> writable d MOD_LVM k) ->
  exists d', str_sets d u MOD_LVM f l = Ok (d', 0%Z) /\ sets (map (entry u f) l) d d'.
Proof.
  intros F. induction l as [|((n, c), v) l IH]; intros G N d W; [exists d; split; [reflexivity|intros x; reflexivity]|].
  cbn [map fst entry] in *. inversion_clear G as [|? ? G1 G2]. inversion_clear N as [|? ? N1 N2]. cbn [fst snd] in G1.
  destruct (str_set_ok d u n c v f G1 F (W _ (or_introl eq_refl))) as (d1 & E1 & S1). cbn [str_sets]. rewrite E1. cbn [obind]. change (0 <? 0)%Z with false. cbv iota.
  destruct (IH G2 N2 d1) as (d2 & E2 & S2).
  { intros k Hk. unfold writable. rewrite (S1 k). cbn [find fst]. destruct (key_eqb_spec (record_key u MOD_LVM n c) k) as [<-|]; [contradiction|]. exact (W k (or_intror Hk)). }
  exists d2. split; [exact E2|]. exact (sets_cons _ _ _ _ _ _ S1 S2 N1).
Qed.

Lemma udev_devmod num c id m c' : udev_var num c <> devmod_key id m c'.
Proof. discriminate. Qed.
Lemma udev_inj num c c' : udev_var num c = udev_var num c' -> c = c'.
Proof. unfold udev_var. intros H. apply app_inv_head in H. apply app_inv_head in H. apply app_inv_head in H. exact H. Qed.
Lemma devmod_inj id m c c' : devmod_key id m c = devmod_key id m c' -> c = c'.
Proof. unfold devmod_key. intros H. do 5 (apply app_inv_head in H). exact H. Qed.
Ltac distinct := intros H; cbn [map fst In app] in H; try contradiction; decompose [or] H; clear H;
  (contradiction || match goal with
   | X : devmod_key _ _ _ = udev_var _ _ |- _ => symmetry in X; exact (udev_devmod _ _ _ _ _ X)
   | X : udev_var _ _ = devmod_key _ _ _ |- _ => exact (udev_devmod _ _ _ _ _ X)
   | X : udev_var _ _ = udev_var _ _ |- _ => apply udev_inj in X; discriminate X
   | X : devmod_key _ _ _ = devmod_key _ _ _ |- _ => apply devmod_inj in X; discriminate X end).
Lemma good c n : match n with NS_UNDEFINED => False | _ => True end -> match c with [] => False | x :: _ => x <> "#"%char end -> good_name n c.
Proof. intros A C. split; [destruct n; (discriminate || contradiction)|]. destruct c as [|x c]; [contradiction|]. split; [discriminate|]. cbn. congruence. Qed.

Lemma name_key u : canonicalize_key (compose_key (get_spec (u_dev u) MOD_LVM (api_dom NS_DEVMOD) NS_DEVMOD K_NAME 0 (Some MOD_DM) None)) = devmod_key (uid u) (B "/type/dm") (B "name").
Proof. apply foreign_key. Qed.
Lemma store_lemma d u name : ~ In NUL name -> lvm_reads d (devmod_key (uid u) (B "/type/dm") (B "name")) name ->
  ((comp1 name = [] \/ comp2 name = []) -> store_component_names d u = Ok (d, (-1)%Z))
  /\ (comp1 name <> [] -> comp2 name <> [] -> (forall k, In k (component_keys u) -> writable d (B "/type/dm/dm_sub/lvm") k) ->
      exists d', store_component_names d u = Ok (d', 1%Z)
        /\ sets (component_records u (comp1 name) (comp2 name) (match comp3 name with [] => None | l => Some l end)) d d').
Proof.
  intros Hn Hr. destruct (components name Hn) as (b1 & lv & b2 & layer & b3 & x & E1 & E2 & E3 & S1 & S2 & S3).
  unfold store_component_names. rewrite (str_get_ok d u NS_DEVMOD K_NAME (Some MOD_DM) name); [|apply good; [exact I|discriminate]|rewrite name_key; exact Hr].
  cbn [obind]. rewrite E1. cbn [obind]. rewrite E2. cbn [obind]. rewrite E3. cbn [obind]. rewrite S1, S2, S3. cbn [obind].
  split.
  - intros [H|H]; rewrite H; [reflexivity|]. destruct (comp1 name); reflexivity.
  - intros N1 N2 W.
    assert (X : forall A (a b : A), match comp1 name, comp2 name with [], _ | _, [] => a | _, _ => b end = b).
    { intros A a b. destruct (comp1 name); [contradiction|]. destruct (comp2 name); [contradiction|]. reflexivity. }
    rewrite X. clear X. set (l1 := [(NS_UDEV, B "DM_VG_NAME", comp1 name); (NS_DEVMOD, B "vg_name", comp1 name); (NS_UDEV, B "DM_LV_NAME", comp2 name); (NS_DEVMOD, B "lv_name", comp2 name)]).
    destruct (str_sets_ok u FL_SYNC_RD l1) with (d := d) as (d1 & Ed1 & Sd1).
    + reflexivity.
    + unfold l1. repeat (apply Forall_cons; [apply good; [exact I|discriminate]|]). apply Forall_nil.
    + unfold l1. cbn [map entry fst]. rewrite !devmod_is, !udev_is. repeat (apply NoDup_cons; [distinct|]). apply NoDup_nil.
    + intros k Hk. apply W. unfold component_keys. unfold l1 in Hk. cbn [map entry fst] in Hk. rewrite !devmod_is, !udev_is in Hk. cbn [map app].
      cbn [In] in *. tauto.
    + rewrite Ed1. cbn [obind]. change (0 <? 0)%Z with false. cbv iota. unfold component_records.
      destruct (comp3 name) as [|y t].
      * exists d1. split; [reflexivity|]. rewrite app_nil_r. exact Sd1.
      * set (ly := y :: t) in *. set (l2 := [(NS_UDEV, B "DM_LV_LAYER", ly); (NS_DEVMOD, B "lv_layer", ly)]).
        destruct (str_sets_ok u FL_SYNC_RD l2) with (d := d1) as (d2 & Ed2 & Sd2).
        -- reflexivity.
        -- unfold l2. repeat (apply Forall_cons; [apply good; [exact I|discriminate]|]). apply Forall_nil.
        -- unfold l2. cbn [map entry fst]. rewrite !devmod_is, !udev_is. repeat (apply NoDup_cons; [distinct|]). apply NoDup_nil.
        -- intros k Hk. unfold writable. rewrite (Sd1 k), find_none.
           ++ apply W. unfold component_keys. unfold l2 in Hk. cbn [map entry fst] in Hk. rewrite !devmod_is, !udev_is in Hk. cbn [map app]. cbn [In] in *. tauto.
           ++ unfold l2 in Hk. unfold l1. cbn [map entry fst] in *. rewrite !devmod_is, !udev_is in *. cbn [In] in Hk. destruct Hk as [<-|[<-|[]]]; distinct.
        -- unfold ly at 1. rewrite Ed2. cbn [obind]. change (0 <? 0)%Z with false. cbv iota. exists d2. split; [reflexivity|].
           rewrite app_assoc. apply (sets_app _ _ d d1 d2 Sd1 Sd2). unfold l1, l2. cbn [map entry fst]. rewrite !devmod_is, !udev_is. intros k Hk. cbn [In] in Hk.
           destruct Hk as [<-|[<-|[<-|[<-|[]]]]]; distinct.
Qed.

(* The output of a command *)
Definition LF : byte := ascii_of_nat 10.
Definition full (l : list (bytes * option (bytes * bytes))) : list bytes := filter (fun s => match s with [] => false | _ => true end) (map fst l).
Lemma iterate_flags : forall fuel s l, iterate fuel [LF] [] false s = Some l -> forallb (fun t => negb (snd t)) l = true.
Proof.
  induction fuel as [|fuel IH]; intros s l H; [discriminate|]. cbn [iterate] in H. destruct s as [|c0 s0]; [injection H as <-; reflexivity|].
  destruct (skipn (span (inset [LF]) (c0 :: s0)) (c0 :: s0)) as [|c t]; [injection H as <-; reflexivity|].
  change (inset [] c) with false in H. cbv iota in H.
  destruct (span_split (fun x => negb (inset ([] ++ [LF]) x)) (c :: t)) as (v & A & _ & _ & D).
  set (r := skipn (span (fun x => negb (inset ([] ++ [LF]) x)) (c :: t)) (c :: t)) in *.
  assert (E : match r with [] => false | x :: _ => negb (inset [LF] x) end = false) by (destruct r as [|x r]; [reflexivity|exact D]).
  rewrite E in H. destruct (iterate fuel [LF] [] false r) as [l'|] eqn:Ei; [|discriminate]. injection H as <-. cbn [forallb snd negb]. exact (IH _ _ Ei).
Qed.
Lemma join_flags l : forallb (fun t : bytes * bool => negb (snd t)) l = true -> forall cur, join cur l = match cur with Some w => [w] | None => [] end ++ map fst l.
Proof.
  induction l as [|(t, b) l IH]; intros H cur; [destruct cur; reflexivity|]. cbn [forallb snd] in H. apply andb_true_iff in H as (Hb & H). destruct b; [discriminate|].
  cbn [join map fst]. rewrite (IH H (Some t)). destruct cur; reflexivity.
Qed.
Lemma flags_map l : forallb (fun t : bytes * bool => negb (snd t)) l = true -> l = map (fun s => (s, false)) (map fst l).
Proof. induction l as [|(t, b) l IH]; intros H; [reflexivity|]. cbn [forallb snd] in H. apply andb_true_iff in H as (Hb & H). destruct b; [discriminate|]. cbn [map fst]. rewrite <- (IH H). reflexivity. Qed.
Lemma words_line s r : ~ In LF s -> forall cur, words [LF] [] cur None (s ++ LF :: r)
  = option_map (fun ws => match cur, s with None, [] => ws | _, _ => (or_empty cur ++ s) :: ws end) (words [LF] [] None None r).
Proof.
  induction s as [|c s IH]; intros H cur.
  - cbn [app words]. change (existsb (Ascii.eqb LF) [LF]) with true. cbv iota. destruct (words [LF] [] None None r); [|reflexivity]. cbn [option_map].
    destruct cur as [w|]; [cbn [or_empty]; rewrite app_nil_r|]; reflexivity.
  - cbn [app words existsb]. assert (Hc : Ascii.eqb c LF = false) by (apply Ascii.eqb_neq; intros ->; apply H; left; reflexivity). rewrite Hc. cbn [orb].
    rewrite IH by (intros X; apply H; right; exact X). destruct (words [LF] [] None None r); [|reflexivity]. cbn [option_map or_empty]. rewrite <- app_assoc. destruct cur; reflexivity.
Qed.
Lemma words_output l tl : Forall (fun p : bytes * option (bytes * bytes) => ~ In LF (fst p)) l ->
  words [LF] [] None None (output_of l ++ tl) = option_map (fun ws => full l ++ ws) (words [LF] [] None None tl).
Proof.
  induction l as [|(s, p) l IH]; intros H; [cbn [output_of flat_map full map filter app]; destruct (words _ _ _ _ tl); reflexivity|].
  inversion_clear H as [|? ? H1 H2]. unfold output_of. cbn [flat_map fst]. fold (output_of l). rewrite <- !app_assoc. cbn [app].
  change (ascii_of_nat 10) with LF. rewrite (words_line s _ H1 None), (IH H2). unfold full. cbn [map filter fst]. destruct (words _ _ _ _ tl); [|reflexivity]. cbn [option_map].
  destruct s; reflexivity.
Qed.
Lemma tokens_output l tl ws : Forall (fun p : bytes * option (bytes * bytes) => ~ In LF (fst p)) l -> words [LF] [] None None tl = Some ws ->
  iterate_tokens (Some (output_of l ++ tl)) (Some [ascii_of_nat 10]) None = Some (map (fun s => (s, false)) (full l ++ ws)).
Proof.
  intros H Hw. change (ascii_of_nat 10) with LF. destruct (iterate_tokens_words (Some (output_of l ++ tl)) (Some [LF]) None) as (W & _).
  cbn [words_of or_empty] in W. rewrite (words_output l tl H), Hw in W. cbn [option_map] in W.
  destruct (iterate_tokens (Some (output_of l ++ tl)) (Some [LF]) None) as [t|] eqn:E; [|discriminate]. cbn [option_map] in W. injection W as W.
  unfold iterate_tokens in E. cbn [or_empty] in E. apply iterate_flags in E. rewrite (join_flags t E None) in W. cbn [app] in W. rewrite W. f_equal. exact (flags_map t E).
Qed.

Lemma own_write d u k : own_values d u -> writable d MOD_LVM (value_key u k).
Proof.
  intros H o Ho. rewrite (H k o Ho). split; [exact lvm_nul|]. intros m Hm. apply match_iff in Hm; [|rewrite (H k o Ho); exact lvm_nul|exact lvm_nul].
  rewrite (H k o Ho) in Hm. vm_compute in Hm. subst m. exact I.
Qed.
Lemma line_step d u s k v : ~ In NUL s -> length s <= 2047 -> pair_text s k v -> name_ok k -> own_values d u ->
  exists d', process_out_line d u true s = Ok (d', 0%Z) /\ sets [(value_key u k, name_record u 0 v)] d d' /\ own_values d' u.
Proof.
  intros Hs Hl Hp Hk Ho. unfold process_out_line. cbn [negb]. replace (LINE_MAX - 1 <? length s) with false by (symmetry; apply Nat.ltb_ge; unfold LINE_MAX; lia).
  destruct (kv_pair s k v Hs Hp) as (b & ko & vo & E & _ & (K1 & K2 & K3) & (V1 & V2 & V3)). rewrite E. cbn [obind]. change (0 <? 0)%Z with false. cbv iota.
  rewrite K3, V3, !string_ok by assumption. cbn [obind].
  destruct (str_set_ok d u NS_DEVMOD k v 0) as (d' & E' & S').
  - split; [discriminate|]. exact Hk.
  - reflexivity.
  - exact (own_write d u k Ho).
  - rewrite E'. cbn [obind]. change (0 <? 0)%Z with false. cbv iota. exists d'. split; [reflexivity|]. split; [exact S'|].
    intros k' o Hr. rewrite (S' _) in Hr. cbn [find fst] in Hr. destruct (key_eqb _ _); [injection Hr as <-; reflexivity|exact (Ho k' o Hr)].
Qed.
Lemma line_skip d u s : ~ In NUL s -> length s <= 2047 -> ~ valueless s -> (forall k v, ~ pair_text s k v) -> process_out_line d u true s = Ok (d, 1%Z).
Proof.
  intros Hs Hl Hv Hp. unfold process_out_line. cbn [negb]. replace (LINE_MAX - 1 <? length s) with false by (symmetry; apply Nat.ltb_ge; unfold LINE_MAX; lia).
  destruct (kv_cases s Hs) as [H|[H|[(k & v & H)|(b & E & _)]]]; [|contradiction|elim (Hp k v H)|].
  - rewrite (kv_blank s H). reflexivity.
  - rewrite E. reflexivity.
Qed.
Lemma empty_pair k v : ~ pair_text [] k v.
Proof. intros (a & b & c & e & _ & _ & _ & _ & (K & _) & [(_ & H)|(q & _ & _ & H)]); apply (f_equal (@length _)) in H; rewrite !app_length in H; cbn [length B] in H; destruct k; cbn [length] in H; (contradiction || lia). Qed.
Lemma lines_lemma u l : Forall line_of l -> forall d rest, own_values d u ->
  exists d', process_lines d u true (map (fun s => (s, false)) (full l ++ rest)) = process_lines d' u true (map (fun s => (s, false)) rest)
    /\ stored_values u l d d' /\ own_values d' u.
Proof.
  induction l as [|(s, p) l IH]; intros H d rest Ho.
  - exists d. split; [reflexivity|]. split; [|exact Ho]. split; [intros k v X; discriminate X|reflexivity].
  - pose proof (Forall_inv_tail H) as Hl. destruct (Forall_inv H) as (H1 & H2 & H3 & H4). clear H. cbn [fst snd] in *. destruct p as [(k, v)|].
    + destruct H4 as (Hp & Hk). destruct s as [|c s]; [elim (empty_pair k v Hp)|]. unfold full. cbn [map filter fst]. fold (full l). cbn [app map process_lines].
      destruct (line_step d u (c :: s) k v H1 H3 Hp Hk Ho) as (d1 & E1 & S1 & O1). rewrite E1. cbn [obind]. change (0 <? 0)%Z with false. cbv iota.
      destruct (IH Hl d1 rest O1) as (d2 & E2 & (V1 & V2) & O2). exists d2. split; [exact E2|]. split; [|exact O2]. split.
      * intros k' v' Hv. cbn [last_value] in Hv. destruct (last_value k' l) as [w|] eqn:L; [injection Hv as <-; exact (V1 k' w L)|].
        destruct (key_eqb_spec k' k) as [->|]; [|discriminate]. injection Hv as <-. rewrite V2.
        -- rewrite (S1 _). cbn [find fst]. rewrite key_eqb_refl. reflexivity.
        -- intros k2 L2 E. apply devmod_inj in E. subst k2. contradiction.
      * intros x Hx. rewrite V2.
        -- rewrite (S1 x). cbn [find fst]. destruct (key_eqb_spec (value_key u k) x) as [<-|]; [|reflexivity]. exfalso. apply (Hx k); [|reflexivity].
           cbn [last_value]. destruct (last_value k l); [discriminate|]. rewrite key_eqb_refl. discriminate.
        -- intros k2 L2. apply Hx. cbn [last_value]. destruct (last_value k2 l); [discriminate|contradiction].
    + assert (V : forall k, last_value k ((s, None) :: l) = last_value k l) by (intros k; cbn [last_value]; destruct (last_value k l); reflexivity).
      assert (T : forall d2, stored_values u l d d2 -> stored_values u ((s, None) :: l) d d2).
      { intros d2 (A & C). split; [intros k v; rewrite V; apply A|]. intros x Hx. apply C. intros k Lk. apply Hx. rewrite V. exact Lk. }
      unfold full. cbn [map filter fst]. fold (full l). destruct s as [|c s].
      * destruct (IH Hl d rest Ho) as (d2 & E2 & S2 & O2). exists d2. split; [exact E2|]. split; [exact (T d2 S2)|exact O2].
      * cbn [app map process_lines]. destruct H4 as (Hv & Hp). rewrite (line_skip d u (c :: s) H1 H3 Hv Hp). cbn [obind]. change (1 <? 0)%Z with false. cbv iota.
        destruct (IH Hl d rest Ho) as (d2 & E2 & S2 & O2). exists d2. split; [exact E2|]. split; [exact (T d2 S2)|exact O2].
Qed.
Lemma no_lf l : Forall line_of l -> Forall (fun p : bytes * option (bytes * bytes) => ~ In LF (fst p)) l.
Proof. apply Forall_impl. intros p (_ & H & _). exact H. Qed.
Lemma output_lemma d u l : Forall line_of l -> own_values d u -> exists d', stdout_recv d u true (output_of l) = Ok (d', 0%Z) /\ stored_values u l d d' /\ own_values d' u.
Proof.
  intros H Ho. unfold stdout_recv. rewrite <- (app_nil_r (output_of l)), (tokens_output l [] [] (no_lf l H) eq_refl).
  destruct (lines_lemma u l H d [] Ho) as (d' & E & S & O). exists d'. rewrite E. split; [reflexivity|]. split; [exact S|exact O].
Qed.
(* a line that stops the handling *)
Lemma stop_lemma d u l s rest : Forall line_of l -> ~ In LF s -> s <> [] -> own_values d u ->
  exists d' ws, stdout_recv d u true (output_of l ++ s ++ LF :: rest)
     = (let! (d2, r) := process_out_line d' u true s in if (r <? 0)%Z then Ok (d2, r) else process_lines d2 u true (map (fun s => (s, false)) ws))
    /\ stored_values u l d d' /\ own_values d' u.
Proof.
  intros H Hs Ns Ho. assert (Q : exists ws, words [LF] [] None None rest = Some ws).
  { clear. assert (G : forall cur, exists ws, words [LF] [] cur None rest = Some ws); [|exact (G None)].
    induction rest as [|c r IH]; intros cur; [eexists; reflexivity|]. cbn [words existsb]. destruct (_ || _).
    - destruct (IH None) as (ws & E). rewrite E. eexists. reflexivity.
    - apply IH. }
  destruct Q as (ws & Q).
  assert (W : words [LF] [] None None (s ++ LF :: rest) = Some (s :: ws)).
  { rewrite (words_line s rest Hs None), Q. destruct s; [contradiction|reflexivity]. }
  unfold stdout_recv. rewrite (tokens_output l _ _ (no_lf l H) W).
  destruct (lines_lemma u l H d (s :: ws) Ho) as (d' & E & S & O). exists d', ws. rewrite E. split; [reflexivity|]. split; [exact S|exact O].
Qed.
Lemma long_lemma d u l s rest : Forall line_of l -> ~ In LF s -> 2048 <= length s -> own_values d u ->
  exists d', stdout_recv d u true (output_of l ++ s ++ LF :: rest) = Ok (d', (- ENOBUFS)%Z) /\ stored_values u l d d'.
Proof.
  intros H Hs Ls Ho. destruct (stop_lemma d u l s rest H Hs) as (d' & ws & E & S & _); [intros ->; cbn in Ls; lia|exact Ho|]. exists d'. rewrite E. split; [|exact S].
  unfold process_out_line. cbn [negb]. replace (LINE_MAX - 1 <? length s) with true by (symmetry; apply Nat.ltb_lt; unfold LINE_MAX; lia). reflexivity.
Qed.
Lemma valueless_lemma d u l s rest : Forall line_of l -> ~ In LF s -> ~ In NUL s -> length s <= 2047 -> valueless s -> own_values d u ->
  stdout_recv d u true (output_of l ++ s ++ LF :: rest) = UB.
Proof.
  intros H Hs Hn Ls V Ho. destruct (stop_lemma d u l s rest H Hs) as (d' & ws & E & _); [|exact Ho|].
  - destruct V as (a & k & b & c & _ & _ & _ & (K & _) & ->). intros X. apply (f_equal (@length _)) in X. rewrite !app_length in X. cbn [length B] in X. destruct k; cbn [length] in X; (contradiction || lia).
  - rewrite E. unfold process_out_line. cbn [negb]. replace (LINE_MAX - 1 <? length s) with false by (symmetry; apply Nat.ltb_ge; unfold LINE_MAX; lia).
    rewrite (kv_valueless s Hn V). reflexivity.
Qed.
Lemma bad_key_lemma d u l s k v rest : Forall line_of l -> ~ In LF s -> ~ In NUL s -> length s <= 2047 -> pair_text s k v -> hd_error k = Some "#"%char -> own_values d u ->
  exists d', stdout_recv d u true (output_of l ++ s ++ LF :: rest) = Ok (d', (-121)%Z) /\ stored_values u l d d'.
Proof.
  intros H Hs Hn Ls P K Ho. destruct (stop_lemma d u l s rest H Hs) as (d' & ws & E & S & _); [intros ->; exact (empty_pair k v P)|exact Ho|]. exists d'. rewrite E. split; [|exact S].
  unfold process_out_line. cbn [negb]. replace (LINE_MAX - 1 <? length s) with false by (symmetry; apply Nat.ltb_ge; unfold LINE_MAX; lia).
  destruct (kv_pair s k v Hn P) as (b & ko & vo & Eg & _ & (K1 & K2 & K3) & (V1 & V2 & V3)). rewrite Eg. cbn [obind]. change (0 <? 0)%Z with false. cbv iota.
  rewrite K3, V3, !string_ok by assumption. cbn [obind]. unfold str_set, kv_set. destruct k as [|x k]; [discriminate|]. injection K as ->. reflexivity.
Qed.

Lemma vg_key u : canonicalize_key (compose_key (get_spec (u_dev u) MOD_LVM (api_dom NS_DEVMOD) NS_DEVMOD K_VG_COMPLETE 0 None None)) = value_key u (B "LVM_VG_NAME_COMPLETE").
Proof. rewrite own_key by (apply good; [exact I|discriminate]). reflexivity. Qed.
Lemma action_none d u runner : lvm_lacks d (value_key u (B "LVM_VG_NAME_COMPLETE")) -> lvm_scan_action_next d u runner = Ok (d, 0%Z, None).
Proof. intros H. unfold lvm_scan_action_next. rewrite str_get_none by (rewrite vg_key; exact H). reflexivity. Qed.
Lemma action_run d u runner vg : lvm_reads d (value_key u (B "LVM_VG_NAME_COMPLETE")) vg -> own_values d u ->
  let args := B "vgchange -aay --autoactivation event " ++ vg in
  ((runner args < 0)%Z -> lvm_scan_action_next d u runner = Ok (d, runner args, Some args))
  /\ ((0 <= runner args)%Z -> exists d', lvm_scan_action_next d u runner = Ok (d', 0%Z, Some args)
       /\ sets [(value_key u (B "LVM_VG_NAME_COMPLETE"), Rec (u_seq u) 0 (u_gen u) (B "/type/dm/dm_sub/lvm") [])] d d' /\ own_values d' u).
Proof.
  intros H Ho args. unfold lvm_scan_action_next. rewrite (str_get_ok d u NS_DEVMOD K_VG_COMPLETE None vg); [|apply good; [exact I|discriminate]|rewrite vg_key; exact H].
  cbn [obind]. change (vgchange_args vg) with args. split; intros R.
  - replace (runner args <? 0)%Z with true by (symmetry; apply Z.ltb_lt; exact R). reflexivity.
  - replace (runner args <? 0)%Z with false by (symmetry; apply Z.ltb_ge; exact R).
    destruct (allowed_lemma d u MOD_LVM NS_DEVMOD K_VG_COMPLETE None 0) as (d' & E & R1 & _ & R2); [apply good; [exact I|discriminate]|exact lvm_nul|exact (own_write d u _ Ho)|].
    rewrite E. cbn [obind]. exists d'. split; [reflexivity|].
    assert (S : sets [(value_key u (B "LVM_VG_NAME_COMPLETE"), Rec (u_seq u) 0 (u_gen u) (B "/type/dm/dm_sub/lvm") [])] d d').
    { intros k. cbn [find fst]. destruct (key_eqb_spec (value_key u (B "LVM_VG_NAME_COMPLETE")) k) as [<-|N]; [exact R1|]. apply R2; [intros ->; apply N; reflexivity|]. intros _. left. reflexivity. }
    split; [exact S|]. intros k o Hr. rewrite (S _) in Hr. cbn [find fst] in Hr. destruct (key_eqb _ _); [injection Hr as <-; reflexivity|exact (Ho k o Hr)].
Qed.

Lemma starts_lemma v n : starts_with false v n = true <-> exists r, v = n ++ r.
Proof.
  pose proof (starts_occurs false v n 0 (Nat.le_0_l _)) as H. rewrite skipn_O in H. rewrite H. split.
  - intros (a & m & b & -> & La & Em). destruct a; [|discriminate]. cbn [same] in Em. subst m. exists b. reflexivity.
  - intros (r & ->). exists [], n, r. repeat split.
Qed.
Lemma uuid_key u : canonicalize_key (compose_key (get_spec (u_dev u) MOD_LVM (api_dom NS_DEVMOD) NS_DEVMOD K_UUID 0 (Some MOD_DM) None)) = devmod_key (uid u) (B "/type/dm") (B "uuid").
Proof. apply foreign_key. Qed.
Lemma fs_key u : canonicalize_key (compose_key (get_spec (u_dev u) MOD_LVM (api_dom NS_UDEV) NS_UDEV (B "ID_FS_TYPE") 0 None None)) = udev_var (number u) (B "ID_FS_TYPE").
Proof. rewrite own_key by (apply good; [exact I|discriminate]). reflexivity. Qed.
Lemma current_lemma d u : (lvm_lacks d (devmod_key (uid u) (B "/type/dm") (B "uuid")) -> lvm_match_current d u = Ok false)
  /\ (forall v, lvm_reads d (devmod_key (uid u) (B "/type/dm") (B "uuid")) v -> exists b, lvm_match_current d u = Ok b /\ (b = true <-> exists r, v = B "LVM-" ++ r)).
Proof.
  unfold lvm_match_current. split.
  - intros H. rewrite str_get_none by (rewrite uuid_key; exact H). reflexivity.
  - intros v H. rewrite (str_get_ok d u NS_DEVMOD K_UUID (Some MOD_DM) v); [|apply good; [exact I|discriminate]|rewrite uuid_key; exact H]. cbn [obind]. eexists. split; [reflexivity|].
    apply starts_lemma.
Qed.
Lemma next_lemma d u : (lvm_lacks d (udev_var (number u) (B "ID_FS_TYPE")) -> lvm_match_next d u = Ok false)
  /\ (forall v, lvm_reads d (udev_var (number u) (B "ID_FS_TYPE")) v -> exists b, lvm_match_next d u = Ok b /\ (b = true <-> v = B "LVM2_member")).
Proof.
  unfold lvm_match_next. split.
  - intros H. rewrite str_get_none by (rewrite fs_key; exact H). reflexivity.
  - intros v H. rewrite (str_get_ok d u NS_UDEV (B "ID_FS_TYPE") None v); [|apply good; [exact I|discriminate]|rewrite fs_key; exact H]. cbn [obind]. eexists. split; [reflexivity|].
    destruct (key_eqb_spec v (B "LVM2_member")); split; congruence.
Qed.

Lemma last_from k l v : last_value k l = Some v -> exists s, In (s, Some (k, v)) l.
Proof.
  induction l as [|(s, p) l IH]; [discriminate|]. cbn [last_value]. destruct (last_value k l) as [w|].
  - intros E. injection E as <-. destruct (IH eq_refl) as (s' & H). exists s'. right. exact H.
  - destruct p as [(k', v')|]; [|discriminate]. destruct (key_eqb_spec k k') as [<-|]; [|discriminate]. intros E. injection E as <-. exists s. left. reflexivity.
Qed.
Lemma pair_nul s k v : ~ In NUL s -> pair_text s k v -> ~ In NUL v.
Proof.
  intros H (a & b & c & e & _ & _ & _ & _ & _ & [(_ & ->)|(q & _ & _ & ->)]) X; apply H; rewrite !in_app_iff; tauto.
Qed.
Lemma flow_lemma d u name runner l code : Forall line_of l -> own_values d u -> (forall a, runner a = (code, output_of l)) ->
  exists d', lvm_scan_next d u name runner = Ok (d', if (code <? 0)%Z then (-1)%Z else 0%Z) /\ stored_values u l d d' /\ own_values d' u
    /\ (forall vg, last_value (B "LVM_VG_NAME_COMPLETE") l = Some vg -> lvm_reads d' (value_key u (B "LVM_VG_NAME_COMPLETE")) vg)
    /\ (last_value (B "LVM_VG_NAME_COMPLETE") l = None -> recs d' (value_key u (B "LVM_VG_NAME_COMPLETE")) = recs d (value_key u (B "LVM_VG_NAME_COMPLETE"))).
Proof.
  intros H Ho R. unfold lvm_scan_next. rewrite R. destruct (output_lemma d u l H Ho) as (d' & E & S & O). rewrite E. cbn [obind].
  exists d'. split; [reflexivity|]. split; [exact S|]. split; [exact O|]. destruct S as (S1 & S2). split.
  - intros vg L. exists (name_record u 0 vg). rewrite (S1 _ _ L). split; [reflexivity|]. split; [exact lvm_nul|]. split.
    + intros m Hm. apply match_iff in Hm; [|exact lvm_nul|exact lvm_nul]. vm_compute in Hm. subst m. exact I.
    + split; [|reflexivity]. destruct (last_from _ _ _ L) as (s & Hs). rewrite Forall_forall in H. destruct (H _ Hs) as (H1 & _ & _ & (H4 & _)). exact (pair_nul _ _ _ H1 H4).
  - intros L. apply S2. intros k Lk E'. apply devmod_inj in E'. subst k. contradiction.
Qed.

Lemma stored_names_lemma d u vg lv layer : lv_names vg lv layer -> lvm_reads d (devmod_key (uid u) (B "/type/dm") (B "name")) (lvm_name vg lv layer) ->
  (forall k, In k (component_keys u) -> writable d (B "/type/dm/dm_sub/lvm") k) ->
  exists d', lvm_scan_a_init d u = Ok (d', 0%Z) /\ sets (component_records u vg lv layer) d d'.
Proof.
  intros H R W. destruct (comps vg lv layer H) as (Hn & C1 & C2 & C3). destruct H as (_ & _ & N1 & N2 & _ & _ & HL).
  destruct (store_lemma d u _ Hn R) as (_ & S). rewrite C1, C2, C3 in S. destruct (S N1 N2 W) as (d' & E & T). exists d'. unfold lvm_scan_a_init. rewrite E. split; [reflexivity|].
  destruct layer as [l|]; [|exact T]. destruct HL as (_ & Nl & _). destruct l; [contradiction|exact T].
Qed.
Lemma refused_lemma d u name : ~ In NUL name -> lvm_reads d (devmod_key (uid u) (B "/type/dm") (B "name")) name ->
  (exists s, name = quoted s) \/ (exists x r, name = "-"%char :: x :: r /\ x <> "-"%char) -> lvm_scan_a_init d u = Ok (d, (-1)%Z).
Proof.
  intros Hn R H. destruct (store_lemma d u name Hn R) as (S & _). unfold lvm_scan_a_init. rewrite S; [reflexivity|]. destruct H as [(s & ->)|(x & r & -> & Hx)].
  - right. unfold comp2. rewrite unq_quoted. reflexivity.
  - left. unfold comp1. rewrite unq_two. change (Ascii.eqb "-" "-") with true. cbv iota. replace (Ascii.eqb x "-") with false by (symmetry; apply Ascii.eqb_neq; exact Hx). reflexivity.
Qed.
Lemma no_name_lemma d u : lvm_lacks d (devmod_key (uid u) (B "/type/dm") (B "name")) -> lvm_scan_a_init d u = Ok (d, (-1)%Z).
Proof. intros H. unfold lvm_scan_a_init, store_component_names. rewrite str_get_none by (rewrite name_key; exact H). reflexivity. Qed.
Lemma any_name_lemma d u name : ~ In NUL name -> lvm_reads d (devmod_key (uid u) (B "/type/dm") (B "name")) name ->
  (forall k, In k (component_keys u) -> writable d (B "/type/dm/dm_sub/lvm") k) ->
  lvm_scan_a_init d u = Ok (d, (-1)%Z)
  \/ exists d' vg lv layer, vg <> [] /\ lv <> [] /\ lvm_scan_a_init d u = Ok (d', 0%Z) /\ sets (component_records u vg lv layer) d d'.
Proof.
  intros Hn R W. destruct (store_lemma d u name Hn R) as (S1 & S2). unfold lvm_scan_a_init.
  destruct (list_eq_dec ascii_dec (comp1 name) []) as [E|E]; [left; rewrite S1 by (left; exact E); reflexivity|].
  destruct (list_eq_dec ascii_dec (comp2 name) []) as [E2|E2]; [left; rewrite S1 by (right; exact E2); reflexivity|].
  right. destruct (S2 E E2 W) as (d' & Ed & T). do 4 eexists. split; [exact E|]. split; [exact E2|]. rewrite Ed. split; [reflexivity|exact T].
Qed.
Lemma ignored_output d u data : exists l, stdout_recv d u false data = l /\ (l = Ok (d, 0%Z) \/ l = Ok (d, (- EINVAL)%Z)).
Proof.
  eexists. split; [reflexivity|]. unfold stdout_recv. destruct (iterate_tokens _ _ _) as [l|]; [left|right; reflexivity].
  induction l as [|(t, b) l IH]; [reflexivity|]. cbn [process_lines]. change (process_out_line d u false t) with (@Ok (db * Z) (d, 0%Z)). cbn [obind]. exact IH.
Qed.
Lemma activation_lemma d u name pvs vgc l code vg : Forall line_of l -> own_values d u -> (forall a, pvs a = (code, output_of l)) ->
  last_value (B "LVM_VG_NAME_COMPLETE") l = Some vg -> let args := B "vgchange -aay --autoactivation event " ++ vg in
  exists d1, lvm_scan_next d u name pvs = Ok (d1, if (code <? 0)%Z then (-1)%Z else 0%Z)
    /\ ((vgc args < 0)%Z -> lvm_scan_action_next d1 u vgc = Ok (d1, vgc args, Some args))
    /\ ((0 <= vgc args)%Z -> exists d2, lvm_scan_action_next d1 u vgc = Ok (d2, 0%Z, Some args)
         /\ forall vgc', lvm_scan_action_next d2 u vgc' = Ok (d2, 0%Z, None)).
Proof.
  intros H Ho R L args. destruct (flow_lemma d u name pvs l code H Ho R) as (d1 & E & _ & O & F & _). exists d1. split; [exact E|].
  destruct (action_run d1 u vgc vg (F vg L) O) as (A & C). split; [exact A|]. intros Hr. destruct (C Hr) as (d2 & E2 & S2 & _). exists d2. split; [exact E2|].
  intros vgc'. apply action_none. intros o Ho'. rewrite (S2 _) in Ho'. cbn [find fst] in Ho'. rewrite key_eqb_refl in Ho'. injection Ho' as <-. reflexivity.
Qed.
Lemma no_activation_lemma d u name pvs vgc l code : Forall line_of l -> own_values d u -> (forall a, pvs a = (code, output_of l)) ->
  last_value (B "LVM_VG_NAME_COMPLETE") l = None -> lvm_lacks d (value_key u (B "LVM_VG_NAME_COMPLETE")) ->
  exists d1, lvm_scan_next d u name pvs = Ok (d1, if (code <? 0)%Z then (-1)%Z else 0%Z) /\ lvm_scan_action_next d1 u vgc = Ok (d1, 0%Z, None).
Proof.
  intros H Ho R L K. destruct (flow_lemma d u name pvs l code H Ho R) as (d1 & E & _ & O & _ & F). exists d1. split; [exact E|].
  apply action_none. intros o Ho'. rewrite (F L) in Ho'. exact (K o Ho').
Qed.
