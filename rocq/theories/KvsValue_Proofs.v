From Verif Require Import Base KvsValue_Model KvsValue_Spec.
Local Open Scope nat_scope.

Lemma block_app m x b : b < length m -> block (m ++ [x]) b = block m b.
Proof. intros H. unfold block. rewrite nth_error_app1 by exact H. reflexivity. Qed.
Lemma block_last m x : block (m ++ [x]) (length m) = x.
Proof. unfold block. rewrite nth_error_app2, Nat.sub_diag by lia. reflexivity. Qed.
Lemma block_lt m b x : block m b = Some x -> b < length m.
Proof. unfold block. intros H. apply nth_error_Some. destruct (nth_error m b); congruence. Qed.
Lemma block_ge m b : length m <= b -> block m b = None.
Proof. intros H. unfold block. rewrite (proj2 (nth_error_None m b) H). reflexivity. Qed.
Lemma block_set m b x c : b < length m -> block (list_set m b x) c = if b =? c then x else block m c.
Proof.
  intros H. unfold block. rewrite nth_error_list_set. destruct (Nat.eqb_spec b c) as [->|N]; [|reflexivity].
  destruct (Nat.ltb_spec c (length m)); [reflexivity|lia].
Qed.

Lemma slice_len bs o n d : slice bs o n = Ok d -> length d = n.
Proof. unfold slice. destruct (Nat.leb_spec (o + n) (length bs)); [|discriminate]. intros E. injection E as <-. rewrite firstn_length, skipn_length. lia. Qed.
Lemma mread_len m p n d : mread m p n = Ok d -> length d = n.
Proof.
  unfold mread. destruct n; [intros E; injection E as <-; reflexivity|]. destruct p as [[b o]|]; [|discriminate].
  destruct (block m b) as [[bs|l|v]|]; try discriminate; [apply slice_len|]. destruct (_ <=? o); [apply slice_len|discriminate].
Qed.
Lemma mread_agree m m' p n : (n <> 0 -> forall x o, p = Some (x, o) -> block m' x = block m x) -> mread m' p n = mread m p n.
Proof.
  intros H. unfold mread. destruct n; [reflexivity|]. destruct p as [[b o]|]; [|reflexivity]. rewrite (H ltac:(lia) b o eq_refl). reflexivity.
Qed.
Lemma read_items_lens m l : forall ds, read_items m l = Ok ds -> map (@length ascii) ds = map snd l.
Proof.
  induction l as [|[p n] l IH]; intros ds; cbn [read_items]; [intros E; injection E as <-; reflexivity|].
  destruct (mread m p n) as [d|] eqn:E; cbn [obind]; [|discriminate]. destruct (read_items m l) as [t|]; cbn [obind]; [|discriminate].
  intros H. injection H as <-. cbn [map snd]. rewrite (mread_len _ _ _ _ E), (IH _ eq_refl). reflexivity.
Qed.
Lemma total_len m l ds : read_items m l = Ok ds -> total l = length (List.concat ds).
Proof.
  intros H. unfold total. rewrite <- (read_items_lens _ _ _ H). clear H. induction ds as [|d ds IH]; [reflexivity|].
  cbn [map List.concat]. rewrite app_length, <- IH. reflexivity.
Qed.
Lemma read_items_agree m m' l : (forall x o n, In (Some (x, o), n) l -> n <> 0 -> block m' x = block m x) -> read_items m' l = read_items m l.
Proof.
  induction l as [|[p n] l IH]; intros H; [reflexivity|]. cbn [read_items]. rewrite IH by (intros; eapply H; [right; eauto|auto]).
  rewrite (mread_agree m m'); [reflexivity|]. intros N x o ->. eapply H; [left; reflexivity|exact N].
Qed.
Lemma read_exists m l ds x o n : read_items m l = Ok ds -> In (Some (x, o), n) l -> n <> 0 -> exists b, block m x = Some b /\ match b with Iov _ => False | _ => True end.
Proof.
  revert ds. induction l as [|[p k] l IH]; intros ds H I N; [contradiction|]. cbn [read_items] in H.
  destruct (mread m p k) as [d|] eqn:E; cbn [obind] in H; [|discriminate]. destruct (read_items m l) as [t|]; cbn [obind] in H; [|discriminate].
  destruct I as [I|I]; [|eapply IH; eauto]. injection I as -> ->. unfold mread in E. destruct n; [congruence|]. destruct (block m x) as [[| |]|]; try discriminate; (eexists; split; [reflexivity|exact Logic.I]).
Qed.

Lemma splice_mid a z d n : length d <= n -> z = zeros n -> splice (a ++ z) (length a) d = Ok ((a ++ d) ++ zeros (n - length d)).
Proof.
  intros L ->. unfold splice. unfold zeros. rewrite app_length, repeat_length. destruct (Nat.leb_spec (length a + length d) (length a + n)); [|lia].
  rewrite firstn_app, firstn_all, Nat.sub_diag, firstn_O, app_nil_r. rewrite skipn_app, skipn_all2 by lia.
  replace (length a + length d - length a) with (length d) by lia. cbn [app]. rewrite <- app_assoc. f_equal. f_equal. f_equal.
  clear. revert n. induction (length d) as [|k IH]; intros n; [rewrite Nat.sub_0_r; reflexivity|]. destruct n; [reflexivity|]. cbn. apply IH.
Qed.

(* Form F *)
Lemma copy_merge_ok m l : forall a ds n, read_items m l = Ok ds -> n = total l ->
  copy_merge m (a ++ zeros n) (length a) l = Ok (a ++ List.concat ds).
Proof.
  induction l as [|[p k] l IH]; intros a ds n H ->; cbn [read_items copy_merge] in *.
  - injection H as <-. unfold zeros, total. cbn. reflexivity.
  - destruct (mread m p k) as [d|] eqn:E; cbn [obind] in *; [|discriminate]. destruct (read_items m l) as [t|] eqn:R; cbn [obind] in H; [|discriminate].
    injection H as <-. pose proof (mread_len _ _ _ _ E) as L. change (total ((p, k) :: l)) with (k + total l).
    rewrite (splice_mid a _ d _ ltac:(rewrite L; apply Nat.le_add_r) eq_refl). cbn [obind].
    replace (length a + k) with (length (a ++ d)) by (rewrite app_length; lia).
    rewrite (IH (a ++ d) t) by (auto; lia). cbn [List.concat]. rewrite app_assoc. reflexivity.
Qed.

(* Where the items of an array built one after the other lie. *)
Fixpoint places (q p : nat) (l : list (option (nat * nat) * nat)) : list (option (nat * nat) * nat) :=
  match l with [] => [] | (_, n) :: t => (Some (q, p), n) :: places q (p + n) t end.
Lemma places_len q l : forall p, length (places q p l) = length l.
Proof. induction l as [|[x n] l IH]; intros p; cbn; auto. Qed.

(* Form E *)
Lemma copy_array_ok m v hd l : forall a ds n p, read_items m l = Ok ds -> n = total l -> p = hd + length a ->
  copy_array m v hd (a ++ zeros n) p l = Ok (places v p l, a ++ List.concat ds).
Proof.
  induction l as [|[b k] l IH]; intros a ds n p H -> ->; cbn [read_items copy_array places] in *.
  - injection H as <-. unfold zeros, total. cbn. reflexivity.
  - destruct (mread m b k) as [d|] eqn:E; cbn [obind] in *; [|discriminate]. destruct (read_items m l) as [t|] eqn:R; cbn [obind] in H; [|discriminate].
    injection H as <-. pose proof (mread_len _ _ _ _ E) as L. change (total ((b, k) :: l)) with (k + total l).
    replace (hd + length a - hd) with (length a) by lia.
    rewrite (splice_mid a _ d _ ltac:(rewrite L; apply Nat.le_add_r) eq_refl). cbn [obind].
    rewrite (IH (a ++ d) t) by (solve [auto | lia | rewrite app_length; lia]). cbn [obind List.concat]. rewrite app_assoc. reflexivity.
Qed.

(* Reading the places back, [f] being how bytes in the block are addressed. *)
Lemma slice_mid a d z : slice (a ++ d ++ z) (length a) (length d) = Ok d.
Proof.
  unfold slice. rewrite !app_length. destruct (Nat.leb_spec (length a + length d) (length a + (length d + length z))); [|lia].
  rewrite skipn_app, skipn_all, Nat.sub_diag, skipn_O. cbn [app]. rewrite firstn_app, firstn_all, Nat.sub_diag, firstn_O, app_nil_r. reflexivity.
Qed.
Lemma read_places m q hd l : forall a ds, map (@length ascii) ds = map snd l ->
  (forall o n, n <> 0 -> mread m (Some (q, hd + o)) n = slice (a ++ List.concat ds) o n) ->
  read_items m (places q (hd + length a) l) = Ok ds.
Proof.
  induction l as [|[x n] l IH]; intros a ds L H; destruct ds as [|d ds]; try discriminate; [reflexivity|]. injection L as L1 L2.
  cbn [places read_items]. replace (mread m (Some (q, hd + length a)) n) with (Ok d).
  - cbn [obind]. replace (hd + length a + n) with (hd + length (a ++ d)) by (rewrite app_length; lia).
    rewrite (IH (a ++ d) ds L2); [reflexivity|]. intros o k Hk. rewrite <- app_assoc. apply H, Hk.
  - destruct n as [|n]; [destruct d; [reflexivity|discriminate]|]. rewrite H by lia. cbn [List.concat]. rewrite <- L1. symmetry. apply slice_mid.
Qed.

(* Form H *)
Lemma list_set_app' {A} (l1 l2 : list A) x y : list_set (l1 ++ x :: l2) (length l1) y = l1 ++ y :: l2.
Proof. induction l1 as [|a l1 IH]; cbn; auto. rewrite IH. auto. Qed.
Lemma bases_cons p n l : bases ((p, n) :: l) = match p with Some (x, _) => [x] | None => [] end ++ bases l.
Proof. reflexivity. Qed.
Lemma in_bases l x o n : In (Some (x, o), n) l -> In x (bases l).
Proof. intros H. unfold bases. apply in_flat_map. exists (Some (x, o), n). split; [exact H|left; reflexivity]. Qed.

Lemma merge_ref_ok auto q b tail l : forall m dsd ds news,
  block m q = Some (Raw (dsd ++ zeros (total l))) -> block m b = Some (Iov (news ++ l ++ tail)) ->
  read_items m l = Ok ds -> (forall x o n, In (Some (x, o), n) l -> n <> 0 -> x <> q) ->
  (auto = true -> NoDup (b :: q :: bases l) /\ Forall (fun i => by_start m (fst i)) l) ->
  exists m', merge_ref m auto q b (length news) (length dsd) l = Ok m' /\ length m' = length m /\
    block m' q = Some (Raw (dsd ++ List.concat ds)) /\ block m' b = Some (Iov (news ++ places q (length dsd) l ++ tail)) /\
    forall x, x <> q -> x <> b -> block m' x = if auto && existsb (Nat.eqb x) (bases l) then None else block m x.
Proof.
  induction l as [|[p n] l IH]; intros m dsd ds news Hq Hb Hr Hn Ha; cbn [merge_ref places read_items] in *.
  - injection Hr as <-. exists m. split; [reflexivity|]. split; [reflexivity|]. cbn [List.concat]. split; [exact Hq|]. split; [exact Hb|].
    intros x _ _. cbn. rewrite andb_false_r. reflexivity.
  - destruct (mread m p n) as [d|] eqn:E; cbn [obind] in *; [|discriminate]. destruct (read_items m l) as [t|] eqn:R; cbn [obind] in Hr; [|discriminate].
    injection Hr as <-. pose proof (mread_len _ _ _ _ E) as L. rewrite Hq.
    assert (Eq : total ((p, n) :: l) = n + total l) by reflexivity. rewrite Eq.
    rewrite (splice_mid dsd _ d _ ltac:(rewrite L; apply Nat.le_add_r) eq_refl). cbn [obind]. replace (n + total l - length d) with (total l) by lia.
    set (m1 := list_set m q _). assert (Lq := block_lt _ _ _ Hq). assert (Lb := block_lt _ _ _ Hb).
    assert (Nqb : q <> b) by (intros e; rewrite e in Hq; rewrite Hq in Hb; discriminate).
    assert (B1 : forall c, block m1 c = if q =? c then Some (Raw ((dsd ++ d) ++ zeros (total l))) else block m c) by (intros c; apply block_set; exact Lq).
    assert (L1 : length m1 = length m) by apply list_set_length.
    assert (F : exists m2, (if auto then mfree m1 p else Ok m1) = Ok m2 /\ length m2 = length m /\
       forall c, block m2 c = if auto && existsb (Nat.eqb c) (match p with Some (x, _) => [x] | None => [] end) then None else block m1 c).
    { destruct auto; [|exists m1; split; [reflexivity|]; split; [exact L1|]; intros c; reflexivity].
      destruct (Ha eq_refl) as [ND OS]. inversion OS as [|y ys By Bys]; subst. destruct p as [[x o]|]; cbn [fst by_start mfree] in *.
      - destruct By as [-> By]. assert (x <> q /\ x <> b).
        { rewrite bases_cons in ND. cbn [app] in ND. inversion ND as [|? ? N1 ND1]; subst. inversion ND1 as [|? ? N2 ND2]; subst. split; intros ->; [apply N2|apply N1]; cbn; auto. }
        assert (Bx : block m1 x = block m x) by (rewrite B1; destruct (Nat.eqb_spec q x); [intuition congruence|reflexivity]). rewrite Bx.
        destruct (block m x) as [bx|] eqn:Ex; [|congruence]. exists (list_set m1 x None). split; [reflexivity|]. split; [rewrite list_set_length; exact L1|].
        intros c. rewrite block_set by (rewrite L1; eapply block_lt; exact Ex). cbn [existsb andb]. rewrite orb_false_r, (Nat.eqb_sym c x). reflexivity.
      - exists m1. split; [reflexivity|]. split; [exact L1|]. intros c. reflexivity. }
    destruct F as (m2 & F2 & L2 & B2). rewrite F2. cbn [obind].
    assert (Bb2 : block m2 b = Some (Iov (news ++ ((p, n) :: l) ++ tail))).
    { rewrite B2, B1. destruct (Nat.eqb_spec q b); [contradiction|]. destruct (auto && _) eqn:Ex; [|exact Hb]. exfalso. apply andb_prop in Ex as [-> Ex].
      destruct p as [[x o]|]; [|discriminate]. cbn [existsb] in Ex. rewrite orb_false_r in Ex. apply Nat.eqb_eq in Ex. subst x.
      destruct (Ha eq_refl) as [ND _]. rewrite bases_cons in ND. inversion ND as [|? ? N1 ND1]; subst. apply N1. right. left. reflexivity. }
    rewrite Bb2. cbn [app]. rewrite list_set_app'. set (m3 := list_set m2 b _).
    assert (B3 : forall c, block m3 c = if b =? c then Some (Iov (news ++ (Some (q, length dsd), n) :: l ++ tail)) else block m2 c)
      by (intros c; apply block_set; rewrite L2; exact Lb).
    assert (Bq3 : block m3 q = Some (Raw ((dsd ++ d) ++ zeros (total l)))).
    { rewrite B3. destruct (Nat.eqb_spec b q); [congruence|]. rewrite B2, B1, Nat.eqb_refl. destruct (auto && _) eqn:Ex; [|reflexivity]. exfalso. apply andb_prop in Ex as [-> Ex].
      destruct p as [[x o]|]; [|discriminate]. cbn [existsb] in Ex. rewrite orb_false_r in Ex. apply Nat.eqb_eq in Ex. subst x.
      destruct (Ha eq_refl) as [ND _]. rewrite bases_cons in ND. inversion ND as [|? ? N1 ND1]; subst. inversion ND1 as [|? ? N2 ND2]; subst. apply N2. left. reflexivity. }
    assert (K : forall c, c <> q -> c <> b -> (auto = true -> In c (bases l)) \/ ~ In c (match p with Some (x, _) => [x] | None => [] end) -> block m3 c = block m c).
    { intros c N1 N2 N3. rewrite B3. destruct (Nat.eqb_spec b c); [congruence|]. rewrite B2, B1. destruct (Nat.eqb_spec q c); [congruence|].
      destruct (auto && _) eqn:Ex; [|reflexivity]. exfalso. apply andb_prop in Ex as [-> Ex]. destruct p as [[x o]|]; [|discriminate].
      cbn [existsb] in Ex. rewrite orb_false_r in Ex. apply Nat.eqb_eq in Ex. subst x. destruct N3 as [N3|N3]; [|apply N3; left; reflexivity].
      destruct (Ha eq_refl) as [ND _]. rewrite bases_cons in ND. inversion ND as [|? ? M1 ND1]; subst. inversion ND1 as [|? ? M2 ND2]; subst. inversion ND2 as [|? ? M3 ND3]; subst. apply M3, N3. reflexivity. }
    specialize (IH m3 (dsd ++ d) t (news ++ [(Some (q, length dsd), n)])).
    destruct IH as (m' & I1 & I2 & I3 & I4 & I5).
    + exact Bq3.
    + rewrite B3, Nat.eqb_refl, <- app_assoc. reflexivity.
    + rewrite <- R. apply read_items_agree. intros x o k Hi Hk. apply K.
      * eapply Hn; [right; exact Hi|exact Hk].
      * destruct (read_exists _ _ _ _ _ _ R Hi Hk) as (bb & Eb & Nb). intros ->. rewrite Hb in Eb. injection Eb as <-. exact Nb.
      * left. intros _. eapply in_bases, Hi.
    + intros x o k Hi. eapply Hn. right. exact Hi.
    + intros Au. destruct (Ha Au) as [ND OS]. inversion OS as [|y ys By Bys]; subst. rewrite bases_cons in ND.
      inversion ND as [|? ? M1 ND1]; subst. inversion ND1 as [|? ? M2 ND2]; subst. assert (ND3 : NoDup (bases l)) by (destruct p as [[x o]|]; [inversion ND2; assumption|exact ND2]).
      split.
      * constructor; [intros [e|e]; [apply M1; left; exact e|apply M1; right; apply in_or_app; right; exact e]|].
        constructor; [intros e; apply M2, in_or_app; right; exact e|exact ND3].
      * apply Forall_forall. intros [[[x o]|] k] Hi; cbn [fst by_start]; [|exact Logic.I].
        pose proof (proj1 (Forall_forall _ _) Bys _ Hi) as Y. cbn [fst by_start] in Y. destruct Y as [Y1 Y2]. split; [exact Y1|].
        assert (Hx := in_bases _ _ _ _ Hi). rewrite K; [exact Y2| | |left; auto].
        -- intros ->. apply M2, in_or_app. right. exact Hx.
        -- intros ->. apply M1. right. apply in_or_app. right. exact Hx.
    + exists m'. rewrite app_length in I1. cbn [length] in I1. rewrite Nat.add_1_r in I1. rewrite app_length in I1, I4.
      replace (length dsd + length d) with (length dsd + n) in * by lia. split; [exact I1|]. split; [rewrite I2; unfold m3; rewrite list_set_length; exact L2|].
      split; [rewrite I3; cbn [List.concat]; rewrite app_assoc; reflexivity|]. split; [rewrite I4, <- app_assoc; reflexivity|].
      intros c N1 N2. rewrite I5 by assumption. rewrite bases_cons, existsb_app. destruct auto; cbn [andb].
      * destruct (existsb (Nat.eqb c) (bases l)) eqn:Eb; [rewrite orb_true_r; reflexivity|]. rewrite orb_false_r.
        rewrite B3. destruct (Nat.eqb_spec b c); [congruence|]. rewrite B2, B1. destruct (Nat.eqb_spec q c); [congruence|]. reflexivity.
      * rewrite B3. destruct (Nat.eqb_spec b c); [congruence|]. rewrite B2, B1. destruct (Nat.eqb_spec q c); [congruence|]. reflexivity.
Qed.

Definition result (m : list (option blk)) (src : source) (ref auto merge : bool) (ds : list bytes) : Prop :=
  exists m' v sz, create_value m src ref auto merge = Ok (m', v, sz) /\
    observe m' v = Ok (stored_form src ref auto merge ds) /\ length m <= v < length m' /\
    (forall x, x < length m -> merged_in_place src ref merge <> Some x ->
      block m' x = if (match merged_in_place src ref merge with Some _ => auto | None => false end) && existsb (Nat.eqb x) (handed_over m src)
                   then None else block m x) /\
    (ref = false -> forall m2, block m2 v = block m' v -> observe m2 v = observe m' v) /\
    (has_items src ->
     exists m2, destroy_value m' v = Ok m2 /\ (forall x, length m <= x -> block m2 x = None) /\
      (forall x, x < length m -> merged_in_place src ref merge <> Some x ->
        block m2 x = if ref && auto && existsb (Nat.eqb x) (handed_over m src) then None else block m x) /\
      (forall b cnt l, src = Vector b cnt -> merged_in_place src ref merge = Some b -> block m b = Some (Iov l) ->
        block m2 b = if auto then None else Some (Iov (repeat (None, 0) cnt ++ skipn cnt l)))).

Lemma mfree_ok m b : block m b <> None -> exists m2, mfree m (Some (b, 0)) = Ok m2 /\ length m2 = length m /\ forall x, block m2 x = if b =? x then None else block m x.
Proof.
  intros H. cbn [mfree]. destruct (block m b) eqn:E; [|congruence]. exists (list_set m b None). split; [reflexivity|]. split; [apply list_set_length|].
  intros x. apply block_set. eapply block_lt, E.
Qed.

Lemma free_items_ok l : forall m, NoDup (bases l) -> Forall (fun i => by_start m (fst i)) l ->
  exists m2, free_items m l = Ok m2 /\ length m2 = length m /\ forall x, block m2 x = if existsb (Nat.eqb x) (bases l) then None else block m x.
Proof.
  induction l as [|[[[b o]|] n] l IH]; intros m ND F; cbn [free_items].
  - exists m. repeat split; auto.
  - inversion F as [|? ? HF F1]; subst. cbn [fst by_start] in HF. destruct HF as [-> Hb]. rewrite bases_cons in ND. inversion ND as [|? ? N1 N2]; subst.
    destruct (mfree_ok m b Hb) as (m1 & E1 & L1 & B1). rewrite E1. cbn [obind]. destruct (IH m1 N2) as (m2 & E2 & L2 & B2).
    + apply Forall_forall. intros [[[y o]|] k] Hi; cbn [fst by_start]; [|exact Logic.I]. pose proof (proj1 (Forall_forall _ _) F1 _ Hi) as Y. cbn [fst by_start] in Y.
      destruct Y as [Y1 Y2]. split; [exact Y1|]. rewrite B1. destruct (Nat.eqb_spec b y); [|exact Y2]. subst y. exfalso. apply N1. eapply in_bases, Hi.
    + exists m2. split; [exact E2|]. split; [lia|]. intros x. rewrite B2, B1, bases_cons. cbn [app existsb]. rewrite (Nat.eqb_sym x b).
      destruct (Nat.eqb b x), (existsb (Nat.eqb x) (bases l)); reflexivity.
  - inversion F; subst. cbn [mfree obind]. apply IH; assumption.
Qed.

(* destroying a value that owns nothing else *)
Lemma destroy_plain m x : fref x && (fauto x || (fvec x && fint x)) = false -> (fref x && fvec x = true -> exists b, vptr x = Some (b, 0)) ->
  exists m2, destroy_value (m ++ [Some (Val x)]) (length m) = Ok m2 /\ (forall y, length m <= y -> block m2 y = None) /\ forall y, y < length m -> block m2 y = block m y.
Proof.
  intros H V. unfold destroy_value. rewrite block_last.
  destruct (mfree_ok (m ++ [Some (Val x)]) (length m)) as (m2 & E & L & Bk); [rewrite block_last; discriminate|].
  rewrite app_length in L. cbn [length] in L.
  assert (G : exists m2, (let! m := Ok (m ++ [Some (Val x)]) in mfree m (Some (length m - 1, 0))) = Ok m2 /\ (forall y, length m <= y -> block m2 y = None) /\ forall y, y < length m -> block m2 y = block m y).
  { exists m2. cbn [obind]. rewrite app_length. cbn [length]. replace (length m + 1 - 1) with (length m) by lia. split; [exact E|]. split; intros y Hy; rewrite Bk; destruct (Nat.eqb_spec (length m) y); try lia; try reflexivity; [apply block_ge; rewrite app_length; cbn [length]; lia|apply block_app, Hy]. }
  cbn [obind] in G. rewrite app_length in G. cbn [length] in G. replace (length m + 1 - 1) with (length m) in G by lia.
  destruct (fref x); [|exact G]. cbn [andb] in *. destruct (fauto x); [discriminate|]. cbn [orb] in H. destruct (fvec x); [|exact G]. cbn [andb] in H. rewrite H.
  destruct (V eq_refl) as [b ->]. exact G.
Qed.

Lemma items_at_app m x b cnt l : items_at m b cnt = Ok l -> items_at (m ++ [x]) b cnt = Ok l /\ b < length m /\ cnt <= length l /\ length l = cnt.
Proof.
  unfold items_at. destruct (block m b) as [[|k|]|] eqn:E; try discriminate. destruct (Nat.leb_spec cnt (length k)); [|discriminate].
  intros H0. injection H0 as <-. assert (Hl := block_lt _ _ _ E). rewrite block_app, E by exact Hl.
  destruct (Nat.leb_spec cnt (length k)); [|lia]. rewrite firstn_length. repeat split; auto; lia.
Qed.

Lemma create_ok m src ref auto merge ds : supplied m src = Ok ds -> (ref && auto = true -> malloced m src) -> result m src ref auto merge ds.
Proof.
  intros S M. unfold result. destruct src as [b cnt|p len]; cbn [create_value supplied stored_form merged_in_place has_items] in *.
  - destruct (items_at m b cnt) as [l|] eqn:EI; cbn [obind] in *; [|discriminate].
    destruct (items_at_app m None b cnt l EI) as (_ & Lb & _ & Ll). pose proof (total_len _ _ _ S) as T. pose proof (read_items_lens _ _ _ S) as LE.
    destruct ref; cbn [andb negb] in *; [destruct merge; cbn [andb] in *|].
    + (* H *)
      unfold items_at in EI. destruct (block m b) as [[|arr|]|] eqn:Eb; try discriminate. destruct (Nat.leb_spec cnt (length arr)); [|discriminate].
      injection EI as EI. assert (Ear : arr = l ++ skipn cnt arr) by (rewrite <- EI; symmetry; apply firstn_skipn).
      set (q := length m). set (m0 := m ++ [Some (Raw (zeros (total l)))]).
      assert (HH : handed_over m (Vector b cnt) = b :: bases l) by (cbn [handed_over]; unfold items_at; rewrite Eb; destruct (Nat.leb_spec cnt (length arr)); [rewrite EI; reflexivity|lia]).
      destruct (merge_ref_ok auto q b (skipn cnt arr) l m0 [] ds []) as (m1 & E1 & L1 & Q1 & B1 & O1).
      * apply block_last.
      * cbn [app]. unfold m0. rewrite block_app, Eb, <- Ear by exact Lb. reflexivity.
      * rewrite <- S. apply read_items_agree. intros x o n Hi Hn. destruct (read_exists _ _ _ _ _ _ S Hi Hn) as (y & Ey & _). apply block_app. eapply block_lt, Ey.
      * intros x o n Hi Hn. destruct (read_exists _ _ _ _ _ _ S Hi Hn) as (y & Ey & _). apply block_lt in Ey. unfold q. lia.
      * intros Au. destruct (M Au) as [ND OS]. rewrite HH in ND. unfold items_at in OS. rewrite Eb in OS. destruct (Nat.leb_spec cnt (length arr)); [|contradiction]. rewrite EI in OS.
        apply NoDup_cons_iff in ND as [N1 N2]. assert (OL : forall x, In x (bases l) -> x < length m).
        { intros x Hx. unfold bases in Hx. apply in_flat_map in Hx as ([[[y o]|] n] & Hi & Hy); [|contradiction]. destruct Hy as [->|[]]. rewrite Forall_forall in OS.
          destruct (OS _ Hi) as [_ Y]. destruct (block m x) eqn:Ex; [eapply block_lt, Ex|congruence]. }
        split.
        -- constructor; [intros [e|e]; [unfold q in e; lia|exact (N1 e)]|]. constructor; [intros e; apply OL in e; unfold q in e; lia|exact N2].
        -- eapply Forall_impl; [|exact OS]. intros [[[x o]|] n]; cbn [fst by_start]; [|auto]. intros [-> Y]. split; [reflexivity|]. unfold m0. rewrite block_app; [exact Y|].
           destruct (block m x) eqn:Ex; [eapply block_lt, Ex|congruence].
      * cbn [length app] in *. fold m0. rewrite E1. cbn [obind].
        set (V := {| vsz := cnt; fvec := true; fref := true; fauto := auto; fint := true; vptr := Some (b, 0); varr := []; vraw := [] |}).
        assert (Lm0 : length m0 = length m + 1) by (unfold m0; rewrite app_length; reflexivity).
        set (m2 := m1 ++ [Some (Val V)]). assert (Lpl : length (places q 0 l) = cnt) by (rewrite places_len; exact Ll).
        exists m2, (length m1), 24. split; [reflexivity|]. split; [|split; [|split; [|split]]].
        -- unfold observe, m2. rewrite block_last. cbn [V fvec fref fauto vsz vptr]. unfold items_at. rewrite block_app, B1 by lia.
           destruct (Nat.leb_spec cnt (length (places q 0 l ++ skipn cnt arr))); [|rewrite app_length in *; lia]. cbn [obind].
           rewrite firstn_app, Lpl, Nat.sub_diag, firstn_O, app_nil_r. rewrite <- Lpl at 1. rewrite firstn_all.
           change 0 with (0 + length (@nil ascii)) at 1. rewrite (read_places _ q 0 l [] ds LE); [reflexivity|]. intros o n Hn. cbn [app Nat.add].
           unfold mread. destruct n; [congruence|]. rewrite block_app, Q1 by (unfold q; lia). reflexivity.
        -- rewrite L1. unfold m2. rewrite app_length. cbn [length]. lia.
        -- intros x Hx Nx. unfold m2. rewrite block_app by lia. rewrite O1 by (unfold q; (lia || congruence)). rewrite HH. unfold m0. rewrite block_app by exact Hx. cbn [existsb].
           destruct (Nat.eqb_spec x b); [congruence|]. reflexivity.
        -- discriminate.
        -- intros Hc. unfold destroy_value, m2. rewrite block_last. cbn [V fvec fref fauto vsz vptr fint]. rewrite block_app, B1 by lia.
           destruct l as [|[p0 n0] l0] eqn:El; [cbn in Ll; lia|]. rewrite <- El in *. assert (Epl : places q 0 l = (Some (q, 0), n0) :: places q n0 l0) by (rewrite El; reflexivity).
           rewrite Epl. cbn [app]. fold m2.
           assert (Q2 : block m2 q = Some (Raw (List.concat ds))) by (unfold m2; rewrite block_app by (unfold q; lia); exact Q1).
           destruct (mfree_ok m2 q ltac:(congruence)) as (m3 & E3 & L3 & B3). rewrite E3. cbn [obind]. assert (Nqb : q <> b) by (unfold q; lia).
           assert (Bb3 : block m3 b = Some (Iov (places q 0 l ++ skipn cnt arr))) by (rewrite B3; destruct (Nat.eqb_spec q b); [congruence|]; unfold m2; rewrite block_app by lia; exact B1).
           assert (Lm2 : length m2 = length m + 2) by (unfold m2; rewrite app_length; cbn [length]; lia).
           assert (Hv : block m2 (length m1) = Some (Val V)) by apply block_last.
           assert (X4 : exists m4, (if auto then mfree m3 (Some (b, 0)) else match block m3 b with
                            | Some (Iov arr) => if cnt <=? length arr then Ok (list_set m3 b (Some (Iov (repeat (None, 0) cnt ++ skipn cnt arr)))) else UB
                            | _ => UB end) = Ok m4 /\ length m4 = length m3 /\
              forall x, block m4 x = if b =? x then if auto then None else Some (Iov (repeat (None, 0) cnt ++ skipn cnt arr)) else block m3 x).
           { destruct auto.
             - destruct (mfree_ok m3 b ltac:(congruence)) as (m4 & E4 & L4 & B4). exists m4. auto.
             - rewrite Bb3. destruct (Nat.leb_spec cnt (length (places q 0 l ++ skipn cnt arr))); [|rewrite app_length in *; lia].
               rewrite skipn_app, Lpl, Nat.sub_diag. rewrite (skipn_all2 (places q 0 l)) by lia. cbn [app skipn]. eexists. split; [reflexivity|]. split; [apply list_set_length|].
               intros x. rewrite block_set by lia. reflexivity. }
           destruct X4 as (m4 & E4 & L4 & B4). rewrite E4. cbn [obind].
           destruct (mfree_ok m4 (length m1)) as (m5 & E5 & L5 & B5).
           { rewrite B4. destruct (Nat.eqb_spec b (length m1)); [lia|]. rewrite B3. destruct (Nat.eqb_spec q (length m1)); [unfold q in *; lia|]. congruence. }
           exists m5. split; [exact E5|]. split; [|split].
           ++ intros x Hx. rewrite B5. destruct (Nat.eqb_spec (length m1) x); [reflexivity|]. rewrite B4. destruct (Nat.eqb_spec b x); [lia|]. rewrite B3.
              destruct (Nat.eqb_spec q x); [reflexivity|]. apply block_ge. unfold q in *. lia.
           ++ intros x Hx Nx. rewrite B5. destruct (Nat.eqb_spec (length m1) x); [lia|]. rewrite B4. destruct (Nat.eqb_spec b x); [congruence|]. rewrite B3.
              destruct (Nat.eqb_spec q x); [unfold q in *; lia|]. unfold m2. rewrite block_app by lia. rewrite O1 by (unfold q; (lia || congruence)). rewrite HH. unfold m0. rewrite block_app by exact Hx. cbn [existsb].
              destruct (Nat.eqb_spec x b); [congruence|]. reflexivity.
           ++ intros b' cnt' l' Es _ Hl'. injection Es as <- <-. rewrite Eb in Hl'. injection Hl' as <-. rewrite B5. destruct (Nat.eqb_spec (length m1) b); [lia|]. rewrite B4, Nat.eqb_refl. reflexivity.
    + (* G *)
      set (V := {| vsz := cnt; fvec := true; fref := true; fauto := auto; fint := false; vptr := Some (b, 0); varr := []; vraw := [] |}).
      exists (m ++ [Some (Val V)]), (length m), 24. split; [reflexivity|]. split; [|split; [|split; [|split]]].
      * unfold observe. rewrite block_last. cbn [V fvec fref fauto vsz vptr]. rewrite (proj1 (items_at_app m _ b cnt l EI)). cbn [obind].
        rewrite (read_items_agree m); [rewrite S; reflexivity|]. intros x o n Hi Hn. destruct (read_exists _ _ _ _ _ _ S Hi Hn) as (y & Ey & _). apply block_app. eapply block_lt, Ey.
      * rewrite app_length. cbn [length]. lia.
      * intros x Hx _. cbn [andb]. apply block_app, Hx.
      * discriminate.
      * intros _. destruct auto.
        -- unfold destroy_value. rewrite block_last. cbn [V fvec fref fauto vsz vptr fint]. rewrite (proj1 (items_at_app m _ b cnt l EI)). cbn [obind].
           destruct (M eq_refl) as [ND OS]. cbn [handed_over] in *. rewrite EI in *. apply NoDup_cons_iff in ND as [N1 N2].
           assert (OS' : Forall (fun i => by_start (m ++ [Some (Val V)]) (fst i)) l).
           { eapply Forall_impl; [|exact OS]. intros [[[x o]|] n]; cbn [fst by_start]; [|auto]. intros [-> Y]. split; [reflexivity|]. rewrite block_app; [exact Y|].
             destruct (block m x) eqn:Ex; [eapply block_lt, Ex|congruence]. }
           destruct (free_items_ok l _ N2 OS') as (m1 & E1 & L1 & B1). rewrite E1. cbn [obind]. rewrite app_length in L1. cbn [length] in L1.
           assert (Hb : block m b <> None) by (unfold items_at in EI; destruct (block m b); congruence).
           assert (OL : forall x, In x (bases l) -> x < length m).
           { intros x Hx. unfold bases in Hx. apply in_flat_map in Hx as ([[[y o]|] n] & Hi & Hy); [|contradiction]. destruct Hy as [->|[]]. rewrite Forall_forall in OS.
             destruct (OS _ Hi) as [_ Y]. destruct (block m x) eqn:Ex; [eapply block_lt, Ex|congruence]. }
           assert (EX : forall x, existsb (Nat.eqb x) (bases l) = true -> In x (bases l)).
           { intros x Hx. apply existsb_exists in Hx as (y & Hy & E). apply Nat.eqb_eq in E. subst y. exact Hy. }
           destruct (mfree_ok m1 b) as (m2 & E2 & L2 & B2).
           { rewrite B1, block_app by exact Lb. destruct (existsb (Nat.eqb b) (bases l)) eqn:Ex; [|exact Hb]. exfalso. apply N1, EX, Ex. }
           rewrite E2. cbn [obind]. destruct (mfree_ok m2 (length m)) as (m3 & E3 & L3 & B3).
           { rewrite B2. destruct (Nat.eqb_spec b (length m)); [lia|]. rewrite B1, block_last. destruct (existsb _ _) eqn:Ex; [|discriminate]. apply EX, OL in Ex. lia. }
           exists m3. split; [exact E3|]. split; [|split; [|discriminate]].
           ++ intros x Hx. rewrite B3. destruct (Nat.eqb_spec (length m) x); [reflexivity|]. rewrite B2. destruct (Nat.eqb_spec b x); [reflexivity|]. rewrite B1.
              destruct (existsb _ _); [reflexivity|]. apply block_ge. rewrite app_length. cbn [length]. lia.
           ++ intros x Hx _. rewrite B3. destruct (Nat.eqb_spec (length m) x); [lia|]. rewrite B2, B1, block_app by exact Hx. cbn [andb existsb]. rewrite (Nat.eqb_sym x b).
              destruct (Nat.eqb b x), (existsb (Nat.eqb x) (bases l)); reflexivity.
        -- destruct (destroy_plain m V eq_refl) as (m2 & E & G1 & G2); [intros _; exists b; reflexivity|]. exists m2. split; [exact E|]. split; [exact G1|]. split; [|discriminate].
           intros x Hx _. cbn [andb]. apply G2, Hx.
    + destruct merge; cbn [andb].
      * (* F *)
        pose proof (copy_merge_ok m l [] ds (total l) S eq_refl) as C. cbn [app length] in C. rewrite C. cbn [obind].
        set (V := {| vsz := total l; fvec := false; fref := false; fauto := auto; fint := true; vptr := None; varr := []; vraw := List.concat ds |}).
        assert (OB : forall m2, block m2 (length m) = Some (Val V) -> observe m2 (length m) = Ok (false, false, auto, length (List.concat ds), [List.concat ds])).
        { intros m2 H2. unfold observe. rewrite H2. cbn [V fvec fref fauto vsz vptr varr length]. replace (mread m2 (Some (length m, 16 * 0)) (total l)) with (Ok (List.concat ds)).
          - cbn [obind]. rewrite T. reflexivity.
          - unfold mread. rewrite T. destruct (List.concat ds) as [|c t] eqn:Ed; [reflexivity|]. cbn [length]. rewrite H2. cbn [V vraw varr length].
            destruct (Nat.leb_spec (16 * 0) (16 * 0)); [|lia]. unfold slice. cbn [Nat.mul Nat.sub Nat.add length]. rewrite Nat.leb_refl. cbn [skipn]. f_equal. symmetry. exact (firstn_all (c :: t)). }
        exists (m ++ [Some (Val V)]), (length m), (16 + total l). split; [reflexivity|]. split; [apply OB, block_last|]. split; [|split; [|split]].
        -- rewrite app_length. cbn [length]. lia.
        -- intros x Hx _. apply block_app, Hx.
        -- intros _ m2 H2. rewrite block_last in H2. rewrite (OB m2 H2). symmetry. apply OB, block_last.
        -- intros _. destruct (destroy_plain m V eq_refl) as (m2 & E & G1 & G2); [discriminate|]. exists m2. split; [exact E|]. split; [exact G1|]. split; [|discriminate].
           intros x Hx _. apply G2, Hx.
      * (* E *)
        pose proof (copy_array_ok m (length m) (16 * cnt) l [] ds (total l) (16 * cnt) S eq_refl ltac:(cbn; lia)) as C. cbn [app] in C. rewrite C. cbn [obind].
        set (V := {| vsz := cnt; fvec := true; fref := false; fauto := auto; fint := true; vptr := None; varr := places (length m) (16 * cnt) l; vraw := List.concat ds |}).
        assert (Lp : length (places (length m) (16 * cnt) l) = cnt) by (rewrite places_len; exact Ll).
        assert (OB : forall m2, block m2 (length m) = Some (Val V) -> observe m2 (length m) = Ok (true, false, auto, cnt, ds)).
        { intros m2 H2. unfold observe. rewrite H2. cbn [V fvec fref fauto vsz vptr varr]. rewrite Lp, Nat.leb_refl. cbn [obind].
          rewrite <- Lp at 1. rewrite firstn_all. replace (16 * cnt) with (16 * cnt + length (@nil ascii)) by (cbn; lia). rewrite (read_places m2 (length m) (16 * cnt) l [] ds LE); [reflexivity|].
          intros o n Hn. unfold mread. destruct n; [congruence|]. rewrite H2. cbn [V varr vraw]. rewrite Lp. destruct (Nat.leb_spec (16 * cnt) (16 * cnt + o)); [|lia].
          replace (16 * cnt + o - 16 * cnt) with o by lia. reflexivity. }
        exists (m ++ [Some (Val V)]), (length m), (16 + 16 * cnt + total l). split; [reflexivity|]. split; [apply OB, block_last|]. split; [|split; [|split]].
        -- rewrite app_length. cbn [length]. lia.
        -- intros x Hx _. apply block_app, Hx.
        -- intros _ m2 H2. rewrite block_last in H2. rewrite (OB m2 H2). symmetry. apply OB, block_last.
        -- intros _. destruct (destroy_plain m V eq_refl) as (m2 & E & G1 & G2); [discriminate|]. exists m2. split; [exact E|]. split; [exact G1|]. split; [|discriminate].
           intros x Hx _. apply G2, Hx.
  - destruct (mread m p len) as [d|] eqn:ER; cbn [obind] in *; [|discriminate]. injection S as <-. pose proof (mread_len _ _ _ _ ER) as L.
    destruct ref; cbn [andb] in *.
    + (* C, D *)
      set (V := {| vsz := len; fvec := false; fref := true; fauto := auto; fint := false; vptr := p; varr := []; vraw := [] |}).
      exists (m ++ [Some (Val V)]), (length m), 24. split; [reflexivity|]. split; [|split; [|split; [|split]]].
      * unfold observe. rewrite block_last. cbn [V fvec fref fauto vsz vptr]. rewrite (mread_agree m), ER; [reflexivity|]. intros N x o ->. apply block_app.
        unfold mread in ER. destruct len; [congruence|]. destruct (block m x) eqn:Ex; [eapply block_lt, Ex|discriminate].
      * rewrite app_length. cbn [length]. lia.
      * intros x Hx _. apply block_app, Hx.
      * discriminate.
      * intros _. destruct auto.
        -- unfold destroy_value. rewrite block_last. cbn [V fvec fref fauto vsz vptr fint]. destruct (M eq_refl) as [_ BS]. destruct p as [[x o]|]; cbn [by_start handed_over] in *.
           ++ destruct BS as [-> BS]. assert (Lx : x < length m) by (destruct (block m x) eqn:Ex; [eapply block_lt, Ex|congruence]).
              destruct (mfree_ok (m ++ [Some (Val V)]) x) as (m1 & E1 & L1 & B1); [rewrite block_app by exact Lx; exact BS|]. rewrite E1. cbn [obind].
              destruct (mfree_ok m1 (length m)) as (m2 & E2 & L2 & B2); [rewrite B1, block_last; destruct (Nat.eqb_spec x (length m)); [lia|discriminate]|].
              exists m2. split; [exact E2|]. split; [|split; [|discriminate]].
              ** intros y Hy. rewrite B2. destruct (Nat.eqb_spec (length m) y); [reflexivity|]. rewrite B1. destruct (Nat.eqb_spec x y); [reflexivity|]. apply block_ge. rewrite app_length. cbn [length]. lia.
              ** intros y Hy _. rewrite B2. destruct (Nat.eqb_spec (length m) y); [lia|]. rewrite B1, block_app by exact Hy. cbn [andb existsb]. rewrite orb_false_r, (Nat.eqb_sym y x). reflexivity.
           ++ cbn [mfree obind]. destruct (mfree_ok (m ++ [Some (Val V)]) (length m)) as (m2 & E2 & L2 & B2); [rewrite block_last; discriminate|]. cbn [mfree] in E2. rewrite E2.
              exists m2. split; [reflexivity|]. split; [|split; [|discriminate]].
              ** intros y Hy. rewrite B2. destruct (Nat.eqb_spec (length m) y); [reflexivity|]. apply block_ge. rewrite app_length. cbn [length]. lia.
              ** intros y Hy _. rewrite B2. destruct (Nat.eqb_spec (length m) y); [lia|]. apply block_app, Hy.
        -- destruct (destroy_plain m V eq_refl) as (m2 & E & G1 & G2); [discriminate|]. exists m2. split; [exact E|]. split; [exact G1|]. split; [|discriminate].
           intros x Hx _. apply G2, Hx.
    + (* A, B *)
      pose proof (splice_mid [] (zeros len) d len ltac:(lia) eq_refl) as C. cbn [app length] in C. rewrite C. cbn [obind]. rewrite L, Nat.sub_diag. cbn [zeros repeat]. rewrite app_nil_r.
      set (V := {| vsz := len; fvec := false; fref := false; fauto := auto; fint := true; vptr := None; varr := []; vraw := d |}).
      assert (OB : forall m2, block m2 (length m) = Some (Val V) -> observe m2 (length m) = Ok (false, false, auto, len, [d])).
      { intros m2 H2. unfold observe. rewrite H2. cbn [V fvec fref fauto vsz vptr varr length]. replace (mread m2 (Some (length m, 16 * 0)) len) with (Ok d); [reflexivity|].
        unfold mread. destruct len; [destruct d; [reflexivity|discriminate]|]. rewrite H2. cbn [V vraw varr length]. destruct (Nat.leb_spec (16 * 0) (16 * 0)); [|lia]. unfold slice.
        cbn [Nat.mul Nat.sub Nat.add]. rewrite L, Nat.leb_refl. cbn [skipn]. rewrite <- L, firstn_all. reflexivity. }
      exists (m ++ [Some (Val V)]), (length m), (16 + len). split; [reflexivity|]. split; [apply OB, block_last|]. split; [|split; [|split]].
      * rewrite app_length. cbn [length]. lia.
      * intros x Hx _. apply block_app, Hx.
      * intros _ m2 H2. rewrite block_last in H2. rewrite (OB m2 H2). symmetry. apply OB, block_last.
      * intros _. destruct (destroy_plain m V eq_refl) as (m2 & E & G1 & G2); [discriminate|]. exists m2. split; [exact E|]. split; [exact G1|]. split; [|discriminate].
        intros x Hx _. apply G2, Hx.
Qed.

Lemma value_roundtrip m src ref auto merge ds : supplied m src = Ok ds -> (ref && auto = true -> malloced m src) ->
  exists m' v sz, create_value m src ref auto merge = Ok (m', v, sz) /\
    observe m' v = Ok (stored_form src ref auto merge ds) /\ length m <= v < length m' /\
    (forall x, x < length m -> merged_in_place src ref merge <> Some x ->
      block m' x = if (match merged_in_place src ref merge with Some _ => auto | None => false end) && existsb (Nat.eqb x) (handed_over m src)
                   then None else block m x) /\
    (ref = false -> forall m2, block m2 v = block m' v -> observe m2 v = observe m' v).
Proof. intros S M. destruct (create_ok m src ref auto merge ds S M) as (m' & v & sz & A & B & C & D & E & _). exists m', v, sz. auto. Qed.
Lemma value_release m src ref auto merge ds : supplied m src = Ok ds -> (ref && auto = true -> malloced m src) -> has_items src ->
  exists m' v sz m2, create_value m src ref auto merge = Ok (m', v, sz) /\ destroy_value m' v = Ok m2 /\
    (forall x, length m <= x -> block m2 x = None) /\
    (forall x, x < length m -> merged_in_place src ref merge <> Some x ->
      block m2 x = if ref && auto && existsb (Nat.eqb x) (handed_over m src) then None else block m x) /\
    (forall b cnt l, src = Vector b cnt -> merged_in_place src ref merge = Some b -> block m b = Some (Iov l) ->
      block m2 b = if auto then None else Some (Iov (repeat (None, 0) cnt ++ skipn cnt l))).
Proof.
  intros S M H. destruct (create_ok m src ref auto merge ds S M) as (m' & v & sz & A & _ & _ & _ & _ & F). destruct (F H) as (m2 & F1 & F2 & F3 & F4).
  exists m', v, sz, m2. split; [exact A|]. split; [exact F1|]. split; [exact F2|]. split; [exact F3|exact F4].
Qed.
