From Verif Require Import Base Bmp_Model Bmp_Spec.
Local Open Scope N_scope.
Ltac Zify.zify_post_hook ::= Z.div_mod_to_equations.

Lemma BLOCK_SHIFT_eq : BLOCK_SHIFT = 5.
Proof. reflexivity. Qed.

Lemma land31 p : N.land p 31 = p mod 32.
Proof. change 31 with (N.ones 5). rewrite N.land_ones. reflexivity. Qed.

Lemma land_pow2_zero w k : (N.land w (2 ^ k) =? 0) = negb (N.testbit w k).
Proof.
  destruct (N.testbit w k) eqn:E; simpl.
  - apply N.eqb_neq. intros H.
    assert (X : N.testbit (N.land w (2 ^ k)) k = false) by (rewrite H; apply N.bits_0).
    rewrite N.land_spec, E, N.pow2_bits_true in X. discriminate.
  - apply N.eqb_eq. apply N.bits_inj. intros j. rewrite N.land_spec, N.bits_0.
    destruct (N.eq_dec j k) as [->|Hj].
    + rewrite E; auto.
    + rewrite N.pow2_bits_false by auto. apply andb_false_r.
Qed.

Lemma get_coord_in b p :
  p < bit_count b -> bit_count b <= 2 ^ 37 ->
  get_coord b p = inl (p / 32, 2 ^ (p mod 32)).
Proof.
  intros H1 H2. unfold get_coord.
  destruct (N.leb_spec (bit_count b) p); [lia|].
  rewrite BLOCK_SHIFT_eq, N.shiftr_div_pow2, N.shiftl_1_l. unfold BITS_PER_BLOCK.
  change (32 - 1) with 31. rewrite land31. unfold wrap32.
  change (2 ^ 5) with 32. f_equal. f_equal.
  apply N.mod_small. change (2 ^ 37) with 137438953472 in *. change (2 ^ 32) with 4294967296. lia.
Qed.

Definition mem_bit (b : bmp) (p : N) : bool :=
  N.testbit (nth (N.to_nat (p / 32)) (mem b) 0) (p mod 32).

Record wf (b : bmp) : Prop := {
  wf_pos : 0 < bit_count b;
  wf_max : bit_count b <= 2 ^ 37;
  wf_len : List.length (mem b) = N.to_nat ((bit_count b - 1) / 32 + 1);
  wf_cnt : bit_set_count b = count_below (bit_count b) (mem_bit b) }.

Lemma count_below_le n s : count_below n s <= n.
Proof.
  unfold count_below.
  pose proof (filter_length_le (fun i => s (N.of_nat i)) (seq 0 (N.to_nat n))) as H.
  rewrite seq_length in H. lia.
Qed.

Lemma count_below_ext n s t : (forall p, p < n -> s p = t p) -> count_below n s = count_below n t.
Proof.
  intros H. unfold count_below. f_equal. f_equal. apply filter_ext_in.
  intros i Hi. apply in_seq in Hi. apply H. lia.
Qed.

Lemma filter_flip (f g : nat -> bool) a m i :
  (a <= i < a + m)%nat -> (forall j, j <> i -> f j = g j) -> f i = false -> g i = true ->
  List.length (List.filter g (seq a m)) = S (List.length (List.filter f (seq a m))).
Proof.
  revert a; induction m as [|m IH]; intros a Hi Hext Hf Hg; [lia|].
  simpl. destruct (Nat.eq_dec a i) as [->|Ha].
  - rewrite Hf, Hg. simpl. f_equal. f_equal. apply filter_ext_in.
    intros j Hj. apply in_seq in Hj. symmetry. apply Hext. lia.
  - rewrite (Hext a Ha). destruct (g a); simpl; rewrite (IH (S a)); auto; lia.
Qed.

Lemma count_below_flip n s t p :
  p < n -> (forall q, q <> p -> s q = t q) -> s p = false -> t p = true ->
  count_below n t = count_below n s + 1.
Proof.
  intros Hp Hext Hs Ht. unfold count_below.
  rewrite (filter_flip (fun i => s (N.of_nat i)) (fun i => t (N.of_nat i)) 0 (N.to_nat n) (N.to_nat p)).
  - lia.
  - lia.
  - intros j Hj. apply Hext. lia.
  - cbv beta. rewrite N2Nat.id; auto.
  - cbv beta. rewrite N2Nat.id; auto.
Qed.

Lemma nth_error_block b p :
  wf b -> p < bit_count b ->
  nth_error (mem b) (N.to_nat (p / 32)) = Some (nth (N.to_nat (p / 32)) (mem b) 0).
Proof.
  intros W H. apply nth_error_nth'. rewrite (wf_len b W).
  assert (p / 32 <= (bit_count b - 1) / 32) by (apply N.div_le_mono; lia). lia.
Qed.

Lemma nth_list_set {A} (l : list A) i j x d :
  (i < List.length l)%nat -> nth j (list_set l i x) d = if (i =? j)%nat then x else nth j l d.
Proof.
  revert i j; induction l as [|h t IH]; intros i j Hi; simpl in Hi; [lia|].
  destruct i as [|i], j as [|j]; simpl; auto. apply IH. lia.
Qed.

Lemma mem_bit_set b p c w' q :
  wf b -> p < bit_count b ->
  mem_bit {| bit_count := bit_count b; bit_set_count := c; mem := list_set (mem b) (N.to_nat (p / 32)) w' |} q =
  if q / 32 =? p / 32 then N.testbit w' (q mod 32) else mem_bit b q.
Proof.
  intros W Hp. unfold mem_bit; cbn [mem].
  rewrite nth_list_set.
  - destruct (Nat.eqb_spec (N.to_nat (p / 32)) (N.to_nat (q / 32)));
    destruct (N.eqb_spec (q / 32) (p / 32)); try lia; auto.
  - rewrite (wf_len b W). assert (p / 32 <= (bit_count b - 1) / 32) by (apply N.div_le_mono; lia). lia.
Qed.

Lemma same_pos p q : q / 32 = p / 32 -> q mod 32 = p mod 32 -> q = p.
Proof. lia. Qed.

(* one step of bmp_set_bit on a well-formed bitmap *)
Lemma set_bit_step b p :
  wf b -> p < bit_count b ->
  exists b', bmp_set_bit b p = Ok (b', 0%Z) /\ wf b' /\ bit_count b' = bit_count b /\
    forall q, mem_bit b' q = if q =? p then true else mem_bit b q.
Proof.
  intros W Hp. unfold bmp_set_bit. rewrite (get_coord_in b p Hp (wf_max b W)).
  rewrite (nth_error_block b p W Hp). rewrite land_pow2_zero.
  fold (mem_bit b p). destruct (mem_bit b p) eqn:E; simpl.
  - exists b; repeat split; try apply W; auto. intros q. destruct (N.eqb_spec q p); subst; auto.
  - set (w := nth (N.to_nat (p / 32)) (mem b) 0) in *.
    set (b' := {| bit_count := _ |}).
    assert (Hbits : forall q, mem_bit b' q = if q =? p then true else mem_bit b q).
    { intros q. unfold b'. rewrite mem_bit_set by auto.
      destruct (N.eqb_spec (q / 32) (p / 32)) as [Hb|Hb].
      - rewrite N.lor_spec.
        destruct (N.eqb_spec q p) as [->|Hq].
        + rewrite N.pow2_bits_true. apply orb_true_r.
        + rewrite N.pow2_bits_false by (intros Hm; apply Hq, same_pos; auto).
          rewrite orb_false_r. unfold mem_bit. rewrite Hb. reflexivity.
      - destruct (N.eqb_spec q p) as [->|Hq]; [congruence|reflexivity]. }
    exists b'; repeat split; auto.
    + apply (wf_pos b W).
    + apply (wf_max b W).
    + unfold b'; cbn [mem bit_count]. rewrite list_set_length. apply (wf_len b W).
    + unfold b' at 1; cbn [bit_set_count]. rewrite (wf_cnt b W).
      change (bit_count b') with (bit_count b).
      pose proof (count_below_le (bit_count b) (mem_bit b)) as Hle.
      pose proof (count_below_le (bit_count b) (mem_bit b')) as Hle'.
      pose proof (wf_max b W) as Hmax.
      rewrite (count_below_flip (bit_count b) (mem_bit b) (mem_bit b') p) in *; auto.
      * unfold wrap64. apply N.mod_small.
        change (2 ^ 37) with 137438953472 in *. change (2 ^ 64) with 18446744073709551616. lia.
      * intros q Hq. rewrite Hbits. destruct (N.eqb_spec q p); congruence.
      * rewrite Hbits, N.eqb_refl; auto.
      * intros q Hq. rewrite Hbits. destruct (N.eqb_spec q p); congruence.
      * rewrite Hbits, N.eqb_refl; auto.
Qed.

Lemma unset_bit_step b p :
  wf b -> p < bit_count b ->
  exists b', bmp_unset_bit b p = Ok (b', 0%Z) /\ wf b' /\ bit_count b' = bit_count b /\
    forall q, mem_bit b' q = if q =? p then false else mem_bit b q.
Proof.
  intros W Hp. unfold bmp_unset_bit. rewrite (get_coord_in b p Hp (wf_max b W)).
  rewrite (nth_error_block b p W Hp). rewrite land_pow2_zero.
  fold (mem_bit b p). destruct (mem_bit b p) eqn:E; simpl.
  - set (w := nth (N.to_nat (p / 32)) (mem b) 0) in *.
    set (b' := {| bit_count := _ |}).
    assert (Hbits : forall q, mem_bit b' q = if q =? p then false else mem_bit b q).
    { intros q. unfold b'. rewrite mem_bit_set by auto.
      destruct (N.eqb_spec (q / 32) (p / 32)) as [Hb|Hb].
      - rewrite N.ldiff_spec.
        destruct (N.eqb_spec q p) as [->|Hq].
        + rewrite N.pow2_bits_true. apply andb_false_r.
        + rewrite N.pow2_bits_false by (intros Hm; apply Hq, same_pos; auto).
          rewrite andb_true_r. unfold mem_bit. rewrite Hb. reflexivity.
      - destruct (N.eqb_spec q p) as [->|Hq]; [congruence|reflexivity]. }
    exists b'; repeat split; auto.
    + apply (wf_pos b W).
    + apply (wf_max b W).
    + unfold b'; cbn [mem bit_count]. rewrite list_set_length. apply (wf_len b W).
    + unfold b' at 1; cbn [bit_set_count]. rewrite (wf_cnt b W).
      change (bit_count b') with (bit_count b).
      pose proof (count_below_le (bit_count b) (mem_bit b)) as Hle.
      pose proof (wf_max b W) as Hmax.
      rewrite (count_below_flip (bit_count b) (mem_bit b') (mem_bit b) p) in *; auto.
      * unfold wrap64. change (2 ^ 37) with 137438953472 in *. change (2 ^ 64) with 18446744073709551616 in *.
        assert (Hm : count_below (bit_count b) (mem_bit b') < 18446744073709551616) by lia.
        replace (_ + 1 + (18446744073709551616 - 1)) with (count_below (bit_count b) (mem_bit b') + 1 * 18446744073709551616) by lia.
        rewrite N.mod_add by lia. apply N.mod_small. exact Hm.
      * intros q Hq. rewrite Hbits. destruct (N.eqb_spec q p); congruence.
      * rewrite Hbits, N.eqb_refl; auto.
      * intros q Hq. rewrite Hbits. destruct (N.eqb_spec q p); congruence.
      * rewrite Hbits, N.eqb_refl; auto.
  - exists b; repeat split; try apply W; auto. intros q. destruct (N.eqb_spec q p); subst; auto.
Qed.

Lemma out_of_range_set b p : bit_count b <= p -> bmp_set_bit b p = Ok (b, (- ERANGE)%Z).
Proof. intros H. unfold bmp_set_bit, get_coord. destruct (N.leb_spec (bit_count b) p); [auto|lia]. Qed.

Lemma out_of_range_unset b p : bit_count b <= p -> bmp_unset_bit b p = Ok (b, (- ERANGE)%Z).
Proof. intros H. unfold bmp_unset_bit, get_coord. destruct (N.leb_spec (bit_count b) p); [auto|lia]. Qed.

Lemma is_set_step b p : wf b -> p < bit_count b -> bmp_bit_is_set b p = Ok (mem_bit b p, None).
Proof.
  intros W Hp. unfold bmp_bit_is_set. rewrite (get_coord_in b p Hp (wf_max b W)).
  rewrite (nth_error_block b p W Hp), land_pow2_zero, negb_involutive. reflexivity.
Qed.

Lemma nth_repeat_lt {A} (x d : A) n i : (i < n)%nat -> nth i (repeat x n) d = x.
Proof. revert i; induction n; intros i Hi; [lia|]. destruct i; simpl; auto. apply IHn; lia. Qed.

Lemma filter_all {A} (f : A -> bool) l : (forall x, In x l -> f x = true) -> filter f l = l.
Proof.
  induction l as [|h t IH]; simpl; intros H; auto.
  rewrite H by auto. f_equal. apply IH. auto.
Qed.
Lemma filter_none {A} (f : A -> bool) l : (forall x, In x l -> f x = false) -> filter f l = [].
Proof.
  induction l as [|h t IH]; simpl; intros H; auto.
  rewrite H by auto. apply IH. auto.
Qed.

Lemma create_wf n inv :
  0 < n -> n <= 2 ^ 37 ->
  exists b, bmp_create n inv = inl b /\ wf b /\ bit_count b = n /\ forall p, p < n -> mem_bit b p = inv.
Proof.
  intros H0 H1. unfold bmp_create. destruct (N.eqb_spec n 0); [lia|].
  set (b := {| bit_count := n |}). exists b.
  assert (Hb : forall p, p < n -> mem_bit b p = inv).
  { intros p Hp. unfold mem_bit, b; cbn [mem]. unfold BITS_PER_BLOCK.
    rewrite nth_repeat_lt.
    - destruct inv; [|apply N.bits_0].
      change (2 ^ 32 - 1) with (N.ones 32). apply N.ones_spec_low. lia.
    - assert (p / 32 <= (n - 1) / 32) by (apply N.div_le_mono; lia). lia. }
  repeat split; auto.
  - unfold b; cbn [mem bit_count]. rewrite repeat_length. reflexivity.
  - unfold b at 1; cbn [bit_set_count bit_count]. change (bit_count b) with n.
    rewrite (count_below_ext n _ (fun _ => inv)) by auto.
    unfold count_below. destruct inv.
    + rewrite filter_all by auto. rewrite seq_length. lia.
    + rewrite filter_none by auto. reflexivity.
Qed.

Lemma run_ok ops : forall b hist init,
  wf b -> (forall p, p < bit_count b -> mem_bit b p = bits_after init hist p) ->
  exists b' rs, bmp_run b ops = Ok (b', rs) /\ wf b' /\ bit_count b' = bit_count b /\
    (forall p, p < bit_count b -> mem_bit b' p = bits_after init (rev ops ++ hist) p) /\
    rs = map (fun o => if op_pos o <? bit_count b then 0%Z else (- ERANGE)%Z) ops.
Proof.
  induction ops as [|o t IH]; intros b hist init W Hm.
  - exists b, []. simpl. auto.
  - assert (Hstep : exists b1, bmp_step b o = Ok (b1, if op_pos o <? bit_count b then 0%Z else (- ERANGE)%Z) /\
               wf b1 /\ bit_count b1 = bit_count b /\
               forall p, p < bit_count b -> mem_bit b1 p = bits_after init (o :: hist) p).
    { destruct o as [p|p]; simpl; destruct (N.ltb_spec p (bit_count b)) as [Hp|Hp].
      - destruct (set_bit_step b p W Hp) as (b1 & E & W1 & C1 & M1).
        exists b1; repeat split; try apply W1; auto. intros q Hq. rewrite M1, Hm by auto. reflexivity.
      - exists b; rewrite out_of_range_set by auto; repeat split; try apply W; auto.
        intros q Hq. rewrite Hm by auto. destruct (N.eqb_spec q p); [lia|auto].
      - destruct (unset_bit_step b p W Hp) as (b1 & E & W1 & C1 & M1).
        exists b1; repeat split; try apply W1; auto. intros q Hq. rewrite M1, Hm by auto. reflexivity.
      - exists b; rewrite out_of_range_unset by auto; repeat split; try apply W; auto.
        intros q Hq. rewrite Hm by auto. destruct (N.eqb_spec q p); [lia|auto]. }
    destruct Hstep as (b1 & E1 & W1 & C1 & M1).
    destruct (IH b1 (o :: hist) init W1) as (b2 & rs & E2 & W2 & C2 & M2 & R2).
    { intros p Hp. apply M1. rewrite <- C1; auto. }
    exists b2, ((if op_pos o <? bit_count b then 0%Z else (- ERANGE)%Z) :: rs).
    cbn [bmp_run]. rewrite E1. cbn [obind]. rewrite E2. cbn [obind].
    repeat split; try apply W2; try congruence.
    + intros p Hp. cbn [rev]. rewrite <- app_assoc. apply M2. congruence.
    + cbn [map]. rewrite R2, C1. reflexivity.
Qed.

Lemma bmp_history_lemma n inv ops :
  0 < n -> n <= 2 ^ 37 ->
  exists b0 b rs, bmp_create n inv = inl b0 /\ bmp_run b0 ops = Ok (b, rs) /\
    bmp_get_bit_count b = n /\
    (forall p, p < n -> bmp_bit_is_set b p = Ok (bits_after inv (rev ops) p, None)) /\
    bmp_get_bit_set_count b = count_below n (bits_after inv (rev ops)) /\
    rs = map (fun o => if op_pos o <? n then 0%Z else (- ERANGE)%Z) ops.
Proof.
  intros H0 H1. destruct (create_wf n inv H0 H1) as (b0 & E0 & W0 & C0 & M0).
  destruct (run_ok ops b0 [] inv W0) as (b & rs & E & W & C & M & R).
  { intros p Hp. rewrite M0 by congruence. reflexivity. }
  rewrite app_nil_r in M. exists b0, b, rs. unfold bmp_get_bit_count, bmp_get_bit_set_count.
  repeat split; auto; try congruence.
  - intros p Hp. rewrite is_set_step by (auto; congruence). rewrite M by congruence. reflexivity.
  - rewrite (wf_cnt b W). rewrite C, C0. apply count_below_ext. intros p Hp. apply M. congruence.
  - rewrite R, C0. reflexivity.
Qed.

Lemma bmp_out_of_range_lemma b p :
  bit_count b <= p ->
  bmp_set_bit b p = Ok (b, (- ERANGE)%Z) /\ bmp_unset_bit b p = Ok (b, (- ERANGE)%Z) /\
  bmp_bit_is_set b p = Ok (false, Some (- ERANGE)%Z).
Proof.
  intros H. repeat split; [apply out_of_range_set|apply out_of_range_unset|]; auto.
  unfold bmp_bit_is_set, get_coord. destruct (N.leb_spec (bit_count b) p); [auto|lia].
Qed.

(* Beyond 2^37 bits the block number no longer fits an [unsigned]. *)
Lemma bmp_large_lemma :
  exists n p q b0 b r, p < n /\ q < n /\ p <> q /\
    bmp_create n false = inl b0 /\ bmp_set_bit b0 p = Ok (b, r) /\
    bmp_bit_is_set b0 q = Ok (false, None) /\ bmp_bit_is_set b q = Ok (true, None).
Proof.
  exists (2 ^ 37 + 1), (2 ^ 37), 0.
  set (k := N.to_nat ((2 ^ 37 + 1 - 1) / BITS_PER_BLOCK + 1)).
  assert (Hk : exists m, k = S m).
  { exists (pred k). assert (k <> O); [|lia]. unfold k. intros H.
    apply (f_equal N.of_nat) in H. rewrite N2Nat.id in H. vm_compute in H. discriminate. }
  destruct Hk as [m Hk].
  eexists {| bit_count := 2 ^ 37 + 1; bit_set_count := 0; mem := repeat 0 (S m) |}.
  eexists {| bit_count := 2 ^ 37 + 1; bit_set_count := 1; mem := 1 :: repeat 0 m |}.
  exists 0%Z. split; [reflexivity|]. split; [reflexivity|]. split; [discriminate|].
  split.
  { unfold bmp_create. change (2 ^ 37 + 1 =? 0) with false. cbv iota.
    fold k. rewrite Hk. reflexivity. }
  unfold bmp_set_bit, bmp_bit_is_set, get_coord; cbn [bit_count mem bit_set_count].
  change (2 ^ 37 + 1 <=? 2 ^ 37) with false. change (2 ^ 37 + 1 <=? 0) with false. cbv iota.
  change (wrap32 (N.shiftr (2 ^ 37) BLOCK_SHIFT)) with 0.
  change (wrap32 (N.shiftr 0 BLOCK_SHIFT)) with 0.
  change (N.shiftl 1 (N.land (2 ^ 37) (BITS_PER_BLOCK - 1))) with 1.
  change (N.shiftl 1 (N.land 0 (BITS_PER_BLOCK - 1))) with 1.
  change (N.to_nat 0) with O. cbn [nth_error repeat]. repeat split.
Qed.
