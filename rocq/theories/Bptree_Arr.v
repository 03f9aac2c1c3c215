(* Array-loop lemmas for the B+ tree: each C loop equals a list operation. *)
From Verif Require Import Base Bptree_Model.

Lemma nth_error_ext {A} (a b : list A) : (forall i, nth_error a i = nth_error b i) -> a = b.
Proof.
  revert b; induction a as [|x a IH]; intros [|y b] H; auto.
  - specialize (H 0). discriminate.
  - specialize (H 0). discriminate.
  - pose proof (H 0) as H0. cbn in H0. injection H0 as ->. f_equal. apply IH. intros i. exact (H (S i)).
Qed.

Lemma nth_error_app_if {A} (a b : list A) i :
  nth_error (a ++ b) i = if i <? length a then nth_error a i else nth_error b (i - length a).
Proof.
  destruct (Nat.ltb_spec i (length a)); [apply nth_error_app1|apply nth_error_app2]; auto.
Qed.
Lemma nth_error_firstn_if {A} n : forall (l : list A) i, nth_error (firstn n l) i = if i <? n then nth_error l i else None.
Proof.
  induction n as [|n IH]; intros [|x l] [|i]; cbn; auto.
  - match goal with |- _ = if ?b then _ else _ => destruct b end; auto.
  - rewrite IH. reflexivity.
Qed.
Lemma nth_error_skipn_eq {A} n : forall (l : list A) i, nth_error (skipn n l) i = nth_error l (n + i).
Proof.
  induction n as [|n IH]; intros [|x l] i; cbn; auto. destruct i; auto.
Qed.
Lemma nth_error_cons_if {A} (x : A) l i : nth_error (x :: l) i = if i =? 0 then Some x else nth_error l (i - 1).
Proof. destruct i; cbn; auto. rewrite Nat.sub_0_r. reflexivity. Qed.
Lemma nth_error_nil_none {A} i : nth_error (@nil A) i = None.
Proof. destruct i; auto. Qed.

Definition insert_at {A} (i : nat) (x : A) (l : list A) : list A := firstn i l ++ x :: skipn i l.
Definition remove_at {A} (i : nat) (l : list A) : list A := firstn i l ++ skipn (S i) l.

Lemma insert_at_length {A} i (x : A) l : i <= length l -> length (insert_at i x l) = S (length l).
Proof. intros H. unfold insert_at. rewrite app_length, firstn_length, Nat.min_l by lia. cbn [length]. rewrite skipn_length. lia. Qed.
Lemma remove_at_length {A} i (l : list A) : i < length l -> length (remove_at i l) = length l - 1.
Proof. intros H. unfold remove_at. rewrite app_length, firstn_length, Nat.min_l, skipn_length by lia. lia. Qed.

Lemma nth_error_insert_at {A} i (x : A) l j : i <= length l ->
  nth_error (insert_at i x l) j = if j <? i then nth_error l j else if j =? i then Some x else nth_error l (j - 1).
Proof.
  intros H. unfold insert_at. rewrite nth_error_app_if, firstn_length, Nat.min_l, nth_error_firstn_if by lia.
  destruct (Nat.ltb_spec j i); auto.
  rewrite nth_error_cons_if, nth_error_skipn_eq.
  destruct (Nat.eqb_spec (j - i) 0), (Nat.eqb_spec j i); try lia; auto. f_equal. lia.
Qed.
Lemma nth_error_remove_at {A} i (l : list A) j : i < length l ->
  nth_error (remove_at i l) j = if j <? i then nth_error l j else nth_error l (S j).
Proof.
  intros H. unfold remove_at. rewrite nth_error_app_if, firstn_length, Nat.min_l, nth_error_firstn_if by lia.
  destruct (Nat.ltb_spec j i); auto. rewrite nth_error_skipn_eq. f_equal. lia.
Qed.

Lemma get_ok {A} (a : list A) i : i < length a -> exists x, get a i = Ok x /\ nth_error a i = Some x.
Proof.
  intros H. unfold get. destruct (nth_error a i) eqn:E; [eauto|]. apply nth_error_None in E. lia.
Qed.
Lemma get_some {A} (a : list A) i x : nth_error a i = Some x -> get a i = Ok x.
Proof. unfold get. intros ->. reflexivity. Qed.

Ltac eqbs := repeat match goal with |- context [(?a =? ?b)%nat] => destruct (Nat.eqb_spec a b) end.

Lemma shift_up_ok {A} lo : forall i (a : list A), i < length a \/ i <= lo ->
  exists b, shift_up a lo i = Ok b /\ length b = length a /\
  forall m, nth_error b m = if (lo <? m) && (m <=? i) then nth_error a (m - 1) else nth_error a m.
Proof.
  induction i as [|j IH]; intros a Hi.
  - exists a. repeat split; auto. intros m. destruct (Nat.ltb_spec lo m), (Nat.leb_spec m 0); auto; lia.
  - cbn [shift_up]. destruct (Nat.ltb_spec lo (S j)) as [L|L].
    + destruct (get_ok a j ltac:(lia)) as (x & -> & Ex). cbn [obind].
      destruct (Nat.ltb_spec (S j) (length a)); [|lia].
      destruct (IH (list_set a (S j) x)) as (b & Eb & Lb & Hb).
      { rewrite list_set_length. left. lia. }
      exists b. split; [exact Eb|]. split; [rewrite Lb; apply list_set_length|].
      intros m. rewrite Hb, !nth_error_list_set.
      destruct (Nat.ltb_spec (S j) (length a)); [|lia].
      destruct (Nat.ltb_spec lo m), (Nat.leb_spec m j), (Nat.leb_spec m (S j)); cbn [andb]; try lia; auto.
      all: eqbs; try lia; subst; auto; cbn; rewrite ?Nat.sub_0_r; auto.
    + exists a. repeat split; auto. intros m.
      destruct (Nat.ltb_spec lo m), (Nat.leb_spec m (S j)); auto; lia.
Qed.

Lemma shift_down_ok {A} : forall cnt i (a : list A), 1 <= i -> i + cnt <= length a ->
  exists b, shift_down a i cnt = Ok b /\ length b = length a /\
  forall m, nth_error b m = if (i - 1 <=? m) && (m <? i - 1 + cnt) then nth_error a (S m) else nth_error a m.
Proof.
  induction cnt as [|c IH]; intros i a Hi Hc.
  - exists a. repeat split; auto. intros m. destruct (Nat.leb_spec (i - 1) m), (Nat.ltb_spec m (i - 1 + 0)); auto; lia.
  - cbn [shift_down]. destruct (get_ok a i ltac:(lia)) as (x & -> & Ex). cbn [obind].
    destruct (IH (S i) (list_set a (i - 1) x)) as (b & Eb & Lb & Hb); [lia|rewrite list_set_length; lia|].
    exists b. split; [exact Eb|]. split; [rewrite Lb; apply list_set_length|].
    intros m. rewrite Hb, !nth_error_list_set.
    destruct (Nat.ltb_spec (i - 1) (length a)); [|lia].
    destruct (Nat.leb_spec (S i - 1) m), (Nat.ltb_spec m (S i - 1 + c)),
      (Nat.leb_spec (i - 1) m), (Nat.ltb_spec m (i - 1 + S c)); cbn [andb]; try lia; auto;
      try (destruct (Nat.eqb_spec (i - 1) m); [lia|auto]; fail).
    all: eqbs; try lia; auto; rewrite <- Ex; f_equal; lia.
Qed.

Lemma arr_ins_ok {A} cap (a : list A) ip x : length a < cap -> ip <= length a ->
  arr_ins cap a ip x = Ok (insert_at ip x a).
Proof.
  intros Hc Hi. unfold arr_ins. destruct (Nat.ltb_spec (length a) cap); [|lia].
  destruct (shift_up_ok ip (length a) (a ++ [x])) as (b & -> & Lb & Hb).
  { rewrite app_length; cbn; lia. }
  cbn [obind]. f_equal. apply nth_error_ext. intros m.
  rewrite nth_error_list_set, Hb, nth_error_insert_at by auto.
  rewrite Lb, app_length. cbn [length].
  rewrite !nth_error_app_if.
  destruct (Nat.eqb_spec ip m) as [<-|].
  - destruct (Nat.ltb_spec ip (length a + 1)); [|lia]. destruct (Nat.ltb_spec ip ip); [lia|]. rewrite Nat.eqb_refl. auto.
  - destruct (Nat.ltb_spec m ip).
    + destruct (Nat.ltb_spec ip m); [lia|]. cbn [andb]. destruct (Nat.ltb_spec m (length a)); [auto|lia].
    + destruct (Nat.eqb_spec m ip); [lia|]. destruct (Nat.ltb_spec ip m); [|lia]. cbn [andb].
      destruct (Nat.leb_spec m (length a)).
      * destruct (Nat.ltb_spec (m - 1) (length a)); [auto|lia].
      * destruct (Nat.ltb_spec m (length a)); [lia|].
        rewrite (proj2 (nth_error_None _ _)) by (cbn; lia). symmetry. apply nth_error_None. lia.
Qed.

Lemma arr_del_ok {A} (a : list A) i : i < length a -> arr_del a i = Ok (remove_at i a).
Proof.
  intros Hi. unfold arr_del. destruct (Nat.ltb_spec i (length a)); [|lia].
  destruct (shift_down_ok (length a - S i) (S i) a) as (b & -> & Lb & Hb); [lia|lia|].
  cbn [obind]. f_equal. apply nth_error_ext. intros m.
  rewrite nth_error_firstn_if, Hb, nth_error_remove_at by auto.
  destruct (Nat.ltb_spec m (length a - 1)).
  - destruct (Nat.leb_spec (S i - 1) m), (Nat.ltb_spec m (S i - 1 + (length a - S i))), (Nat.ltb_spec m i); cbn [andb]; auto; lia.
  - destruct (Nat.ltb_spec m i); [lia|]. symmetry. apply nth_error_None. lia.
Qed.

Lemma skipn_nth {A} (l : list A) n x : nth_error l n = Some x -> skipn n l = x :: skipn (S n) l.
Proof. revert l; induction n; intros [|y l] H; cbn in *; try discriminate; [congruence|]. auto. Qed.

Lemma cut_le n : 1 <= n -> cut n <= n /\ 1 <= cut n /\ n <= 2 * cut n <= n + 1.
Proof.
  intros H. unfold cut. pose proof (Nat.div_mod (n + 1) 2 ltac:(lia)). pose proof (Nat.mod_upper_bound (n + 1) 2 ltac:(lia)). lia.
Qed.

(* leaf split *)
Lemma leaf_copy_ok {A} (a : list A) split ins x : ins <= length a -> forall n j i,
  i = (if ins <? split + j then split + j - 1 else split + j) ->
  split + j + n <= S (length a) ->
  leaf_copy a split ins x n j i = Ok (firstn n (skipn (split + j) (insert_at ins x a))).
Proof.
  intros Hins. induction n as [|n IH]; intros j i Hi Hn; [reflexivity|].
  cbn [leaf_copy].
  assert (Hnx : exists y, nth_error (insert_at ins x a) (split + j) = Some y).
  { destruct (nth_error (insert_at ins x a) (split + j)) eqn:E; [eauto|]. apply nth_error_None in E.
    rewrite insert_at_length in E by auto. lia. }
  destruct Hnx as (y & Ey). rewrite (skipn_nth _ _ _ Ey). cbn [firstn].
  rewrite nth_error_insert_at in Ey by auto.
  destruct (Nat.eqb_spec (split + j) ins) as [E|E].
  - destruct (Nat.ltb_spec (split + j) ins); [lia|]. injection Ey as <-.
    rewrite (IH (S j) i).
    + cbn [obind]. do 4 f_equal. lia.
    + subst i. destruct (Nat.ltb_spec ins (split + j)), (Nat.ltb_spec ins (split + S j)); lia.
    + lia.
  - assert (Eg : nth_error a i = Some y).
    { subst i. destruct (Nat.ltb_spec (split + j) ins), (Nat.ltb_spec ins (split + j)); try lia; auto. }
    rewrite (get_some _ _ _ Eg). cbn [obind].
    rewrite (IH (S j) (S i)).
    + cbn [obind]. do 4 f_equal. lia.
    + subst i. destruct (Nat.ltb_spec ins (split + j)), (Nat.ltb_spec ins (split + S j)); lia.
    + lia.
Qed.

Lemma leaf_split_ok {A} order (a : list A) ins x : 4 <= order -> length a = order - 1 -> ins <= length a ->
  leaf_split order a ins x =
  Ok (firstn (cut (order - 1)) (insert_at ins x a), skipn (cut (order - 1)) (insert_at ins x a)).
Proof.
  intros Ho Ha Hins. pose proof (cut_le (order - 1) ltac:(lia)) as Hcut.
  unfold leaf_split. set (split := cut (order - 1)) in *.
  rewrite leaf_copy_ok; [|auto| |lia].
  2: { destruct (Nat.ltb_spec ins split), (Nat.ltb_spec ins (split + 0)); lia. }
  cbn [obind]. rewrite Nat.add_0_r.
  replace (firstn (order - split) (skipn split (insert_at ins x a))) with (skipn split (insert_at ins x a)).
  2: { symmetry. apply firstn_all2. rewrite skipn_length, insert_at_length by auto. lia. }
  destruct (Nat.ltb_spec ins split) as [L|L].
  - destruct (shift_up_ok ins (split - 1) a) as (b & -> & Lb & Hb); [left; lia|].
    cbn [obind]. do 2 f_equal. apply nth_error_ext. intros m.
    rewrite !nth_error_firstn_if. destruct (Nat.ltb_spec m split); auto.
    rewrite nth_error_list_set, Hb, nth_error_insert_at by auto. rewrite Lb.
    destruct (Nat.eqb_spec ins m) as [<-|].
    + destruct (Nat.ltb_spec ins (length a)); [|lia]. destruct (Nat.ltb_spec ins ins); [lia|]. rewrite Nat.eqb_refl. auto.
    + destruct (Nat.ltb_spec m ins), (Nat.ltb_spec ins m), (Nat.leb_spec m (split - 1)), (Nat.eqb_spec m ins); cbn [andb]; auto; lia.
  - cbn [obind]. do 2 f_equal. apply nth_error_ext. intros m.
    rewrite !nth_error_firstn_if. destruct (Nat.ltb_spec m split); auto.
    rewrite nth_error_insert_at by auto. destruct (Nat.ltb_spec m ins); auto. lia.
Qed.

(* internal split *)
Lemma node_copy_ok ks cs split li bk rgt : li <= length ks -> length cs = S (length ks) -> forall n i j k,
  j = (if li + 1 <? split + i then split + i - 1 else split + i) ->
  k = (if li <? split + i then split + i - 1 else split + i) ->
  split + i + n = S (length ks) ->
  node_copy ks cs split li bk rgt n i j k =
  Ok (skipn (split + i) (insert_at li bk ks), skipn (split + i) (insert_at (S li) rgt cs)).
Proof.
  intros Hli Hcs. induction n as [|n IH]; intros i j k Hj Hk Hn.
  - cbn [node_copy].
    rewrite (skipn_all2 (insert_at li bk ks)) by (rewrite insert_at_length; lia).
    assert (Hnx : exists y, nth_error (insert_at (S li) rgt cs) (split + i) = Some y).
    { destruct (nth_error (insert_at (S li) rgt cs) (split + i)) eqn:E; [eauto|]. apply nth_error_None in E.
      rewrite insert_at_length in E by lia. lia. }
    destruct Hnx as (y & Ey). rewrite (skipn_nth _ _ _ Ey).
    rewrite (skipn_all2 (insert_at (S li) rgt cs)) by (rewrite insert_at_length; lia).
    rewrite nth_error_insert_at in Ey by lia.
    destruct (Nat.eqb_spec (split + i) (li + 1)) as [E|E].
    + destruct (Nat.ltb_spec (split + i) (S li)); [lia|].
      destruct (Nat.eqb_spec (split + i) (S li)); [|lia]. injection Ey as <-. reflexivity.
    + assert (Eg : nth_error cs j = Some y).
      { subst j. destruct (Nat.ltb_spec (split + i) (S li)), (Nat.ltb_spec (li + 1) (split + i)); try lia; auto.
        destruct (Nat.eqb_spec (split + i) (S li)); [lia|auto]. }
      rewrite (get_some _ _ _ Eg). reflexivity.
  - cbn [node_copy].
    assert (Hnx : exists y, nth_error (insert_at (S li) rgt cs) (split + i) = Some y).
    { destruct (nth_error (insert_at (S li) rgt cs) (split + i)) eqn:E; [eauto|]. apply nth_error_None in E.
      rewrite insert_at_length in E by lia. lia. }
    assert (Hnk : exists y, nth_error (insert_at li bk ks) (split + i) = Some y).
    { destruct (nth_error (insert_at li bk ks) (split + i)) eqn:E; [eauto|]. apply nth_error_None in E.
      rewrite insert_at_length in E by lia. lia. }
    destruct Hnx as (y & Ey). destruct Hnk as (z & Ez).
    rewrite (skipn_nth _ _ _ Ey), (skipn_nth _ _ _ Ez).
    rewrite nth_error_insert_at in Ey by lia. rewrite nth_error_insert_at in Ez by lia.
    replace (S (split + i)) with (split + S i) by lia.
    destruct (Nat.eqb_spec (split + i) li) as [E|E]; [|destruct (Nat.eqb_spec (split + i) (li + 1)) as [E1|E1]].
    + assert (Eg : nth_error cs j = Some y).
      { subst j. destruct (Nat.ltb_spec (split + i) (S li)), (Nat.ltb_spec (li + 1) (split + i)); try lia; auto. }
      rewrite (get_some _ _ _ Eg). cbn [obind].
      rewrite (IH (S i) (S j) k); [cbn [obind fst snd]| | |lia].
      * destruct (Nat.ltb_spec (split + i) li); [lia|]. injection Ez as <-. reflexivity.
      * subst j. destruct (Nat.ltb_spec (li + 1) (split + i)), (Nat.ltb_spec (li + 1) (split + S i)); lia.
      * subst k. destruct (Nat.ltb_spec li (split + i)), (Nat.ltb_spec li (split + S i)); lia.
    + assert (Eg : nth_error ks k = Some z).
      { subst k. destruct (Nat.ltb_spec (split + i) li), (Nat.ltb_spec li (split + i)); try lia; auto. }
      rewrite (get_some _ _ _ Eg). cbn [obind].
      rewrite (IH (S i) j (S k)); [cbn [obind fst snd]| | |lia].
      * destruct (Nat.ltb_spec (split + i) (S li)); [lia|].
        destruct (Nat.eqb_spec (split + i) (S li)); [|lia]. injection Ey as <-. reflexivity.
      * subst j. destruct (Nat.ltb_spec (li + 1) (split + i)), (Nat.ltb_spec (li + 1) (split + S i)); lia.
      * subst k. destruct (Nat.ltb_spec li (split + i)), (Nat.ltb_spec li (split + S i)); lia.
    + assert (Eg : nth_error cs j = Some y).
      { subst j. destruct (Nat.ltb_spec (split + i) (S li)), (Nat.ltb_spec (li + 1) (split + i)), (Nat.eqb_spec (split + i) (S li)); try lia; auto. }
      assert (Eh : nth_error ks k = Some z).
      { subst k. destruct (Nat.ltb_spec (split + i) li), (Nat.ltb_spec li (split + i)); try lia; auto. }
      rewrite (get_some _ _ _ Eg), (get_some _ _ _ Eh). cbn [obind].
      rewrite (IH (S i) (S j) (S k)); [cbn [obind fst snd]; reflexivity| | |lia].
      * subst j. destruct (Nat.ltb_spec (li + 1) (split + i)), (Nat.ltb_spec (li + 1) (split + S i)); lia.
      * subst k. destruct (Nat.ltb_spec li (split + i)), (Nat.ltb_spec li (split + S i)); lia.
Qed.

Lemma node_shift_ok li rgt : forall i ks cs, i < length ks \/ i <= li -> length cs = S (length ks) ->
  exists ks' cs', node_shift ks cs li rgt i = Ok (ks', cs') /\ length ks' = length ks /\ length cs' = length cs /\
  (forall m, nth_error ks' m = if (li <? m) && (m <=? i) then nth_error ks (m - 1) else nth_error ks m) /\
  (forall m, nth_error cs' m = if (m =? li + 1) && (m <=? i) then Some rgt
                               else if (li + 1 <? m) && (m <=? i) then nth_error cs (m - 1) else nth_error cs m).
Proof.
  induction i as [|j IH]; intros ks cs Hi Hl.
  - exists ks, cs. repeat split; auto.
    + intros m. destruct (Nat.ltb_spec li m), (Nat.leb_spec m 0); auto; lia.
    + intros m. destruct (Nat.eqb_spec m (li + 1)), (Nat.ltb_spec (li + 1) m), (Nat.leb_spec m 0); cbn [andb]; auto; lia.
  - cbn [node_shift]. destruct (Nat.ltb_spec li (S j)) as [L|L].
    + destruct (get_ok ks j ltac:(lia)) as (x & Egx & Ex).
      destruct (get_ok cs j ltac:(lia)) as (p & Egp & Ep).
      set (p' := if li + 1 <? S j then p else rgt).
      assert (Ep' : (if li + 1 <? S j then get cs j else Ok rgt) = Ok p').
      { unfold p'. destruct (_ <? _); auto. }
      rewrite Ep', Egx. cbn [obind].
      destruct (Nat.ltb_spec (S j) (length ks)); [|lia]. destruct (Nat.ltb_spec (S j) (length cs)); [|lia]. cbn [andb].
      destruct (IH (list_set ks (S j) x) (list_set cs (S j) p')) as (ks' & cs' & E & L1 & L2 & H1 & H2).
      { rewrite list_set_length. lia. } { rewrite !list_set_length. lia. }
      exists ks', cs'. rewrite list_set_length in L1. rewrite list_set_length in L2. repeat split; auto.
      * intros m. rewrite H1, !nth_error_list_set.
        destruct (Nat.ltb_spec (S j) (length ks)); [|lia].
        destruct (Nat.ltb_spec li m), (Nat.leb_spec m j), (Nat.leb_spec m (S j)); cbn [andb]; try lia;
          eqbs; try lia; subst; auto; cbn; rewrite ?Nat.sub_0_r; auto.
      * intros m. rewrite H2, !nth_error_list_set.
        destruct (Nat.ltb_spec (S j) (length cs)); [|lia].
        destruct (Nat.eqb_spec m (li + 1)), (Nat.ltb_spec (li + 1) m), (Nat.leb_spec m j), (Nat.leb_spec m (S j));
          cbn [andb]; try lia; auto; eqbs; try lia; auto; subst; unfold p'.
        all: destruct (Nat.ltb_spec (li + 1) (S j)); try lia; auto; cbn; rewrite ?Nat.sub_0_r; auto.
    + exists ks, cs. repeat split; auto.
      * intros m. destruct (Nat.ltb_spec li m), (Nat.leb_spec m (S j)); auto; lia.
      * intros m. destruct (Nat.eqb_spec m (li + 1)), (Nat.ltb_spec (li + 1) m), (Nat.leb_spec m (S j)); cbn [andb]; auto; lia.
Qed.

Lemma node_split_ok order ks cs li bk rgt : 4 <= order -> length ks = order - 1 -> length cs = order -> li <= length ks ->
  exists bkp,
  nth_error (insert_at li bk ks) (cut order - 1) = Some bkp /\
  node_split order ks cs li bk rgt =
  Ok (Node (firstn (cut order - 1) (insert_at li bk ks)) (firstn (cut order) (insert_at (S li) rgt cs)), bkp,
      Node (skipn (cut order) (insert_at li bk ks)) (skipn (cut order) (insert_at (S li) rgt cs))).
Proof.
  intros Ho Hk Hc Hli. pose proof (cut_le order ltac:(lia)) as Hcut.
  unfold node_split. set (split := cut order) in *.
  rewrite node_copy_ok; try lia.
  2: { destruct (Nat.ltb_spec (li + 1) split), (Nat.ltb_spec (li + 1) (split + 0)); lia. }
  2: { destruct (Nat.ltb_spec li split), (Nat.ltb_spec li (split + 0)); lia. }
  cbn [obind]. rewrite Nat.add_0_r.
  assert (Hnk : exists y, nth_error (insert_at li bk ks) (split - 1) = Some y).
  { destruct (nth_error (insert_at li bk ks) (split - 1)) eqn:E; [eauto|]. apply nth_error_None in E.
    rewrite insert_at_length in E by lia. lia. }
  destruct Hnk as (bkp & Ebk). exists bkp. split; [exact Ebk|].
  destruct (Nat.ltb_spec li split) as [L|L].
  - destruct (node_shift_ok li rgt (split - 1) ks cs) as (ks' & cs' & -> & L1 & L2 & H1 & H2); [lia|lia|].
    cbn [obind fst snd]. destruct (Nat.ltb_spec li (length ks')); [|lia]. cbn [obind fst snd].
    assert (Hks : forall m, m < split -> nth_error (list_set ks' li bk) m = nth_error (insert_at li bk ks) m).
    { intros m Hm. rewrite nth_error_list_set, H1, nth_error_insert_at by auto.
      destruct (Nat.eqb_spec li m) as [<-|].
      - destruct (Nat.ltb_spec li (length ks')); [|lia]. destruct (Nat.ltb_spec li li); [lia|]. rewrite Nat.eqb_refl. auto.
      - destruct (Nat.ltb_spec m li), (Nat.ltb_spec li m), (Nat.leb_spec m (split - 1)), (Nat.eqb_spec m li); cbn [andb]; auto; lia. }
    rewrite (get_some _ _ bkp) by (rewrite Hks by lia; exact Ebk).
    cbn [obind fst snd]. do 4 f_equal.
    + apply nth_error_ext. intros m. rewrite !nth_error_firstn_if. destruct (Nat.ltb_spec m (split - 1)); auto. apply Hks. lia.
    + apply nth_error_ext. intros m. rewrite !nth_error_firstn_if. destruct (Nat.ltb_spec m split); auto.
      rewrite H2, nth_error_insert_at by lia.
      destruct (Nat.eqb_spec m (li + 1)), (Nat.ltb_spec (li + 1) m), (Nat.leb_spec m (split - 1)),
        (Nat.ltb_spec m (S li)), (Nat.eqb_spec m (S li)); cbn [andb]; auto; lia.
  - cbn [obind fst snd].
    assert (Hks : forall m, m < split -> nth_error ks m = nth_error (insert_at li bk ks) m).
    { intros m Hm. rewrite nth_error_insert_at by auto. destruct (Nat.ltb_spec m li); auto. lia. }
    rewrite (get_some _ _ bkp) by (rewrite Hks by lia; exact Ebk).
    cbn [obind fst snd]. do 4 f_equal.
    + apply nth_error_ext. intros m. rewrite !nth_error_firstn_if. destruct (Nat.ltb_spec m (split - 1)); auto. apply Hks. lia.
    + apply nth_error_ext. intros m. rewrite !nth_error_firstn_if. destruct (Nat.ltb_spec m split); auto.
      rewrite nth_error_insert_at by lia. destruct (Nat.ltb_spec m (S li)); auto. lia.
Qed.
