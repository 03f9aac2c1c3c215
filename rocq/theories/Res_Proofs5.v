From Verif Require Import Base Res_Model Res_Spec Res_Proofs Res_Proofs2 Res_Proofs3 Res_Proofs4.
Local Open Scope nat_scope.

Definition pa (k : rrec) : N := match r_parent k with Some _ => 1 | None => 0 end.
Definition un (k : rrec) : N := if r_init k then 0 else 1.
Definition counts (hf : nat -> nat) (s : st) : Prop := forall r k, rget s r = Some k -> (N.of_nat (hf r) <= 4294967293)%N /\ r_refs k = (N.of_nat (hf r) + pa k + un k)%N.
Record inv (h : list rop) (s : st) : Prop := { v_good : good s; v_counts : counts (held h) s; v_new : forall r, length s <= r -> held h r = 0 }.
Lemma pa_le k : (pa k <= 1)%N. Proof. unfold pa. destruct (r_parent k); lia. Qed.
Lemma un_le k : (un k <= 1)%N. Proof. unfold un. destruct (r_init k); lia. Qed.
Lemma inc_ok n : (n < 4294967295)%N -> inc n = (n + 1)%N.
Proof. unfold inc. destruct (N.eqb_spec n 4294967295); lia. Qed.
Lemma dec_ok n : (0 < n)%N -> dec n = (n - 1)%N.
Proof. unfold dec. destruct (N.eqb_spec n 0); lia. Qed.

(* Destroying *)
Lemma refs_goes h s c k : inv h s -> rget s c = Some k -> r_parent k <> None -> refs_of s c = 1%N <-> held h c = 0 /\ ~ unfinished s c.
Proof.
  intros V G P. destruct (v_counts _ _ V c k G) as [_ E]. unfold refs_of. rewrite G, E. unfold pa, un. destruct (r_parent k); [|contradiction]. unfold unfinished. destruct (r_init k) eqn:Ei; split.
  - intros H. split; [lia|]. intros (k' & G' & H'). congruence.
  - intros [H _]. lia.
  - lia.
  - intros [_ H]. exfalso. apply H. exists k. auto.
Qed.
Lemma goes_trans h s a b c : goes h s a b -> goes h s b c -> goes h s a c.
Proof. intros A B. induction B as [|x c B IH C H N]; [exact A|]. eapply G_child; eassumption. Qed.
Lemma kill_goes h s t : inv h s -> tree_at s t -> forall x, In x (fst (kill (refs_of s) t)) <-> goes h s (root t) x.
Proof.
  intros V T x. destruct (g_agree _ (v_good _ _ V)) as (A1 & _). split.
  - clear - V T A1. revert x. induction t as [r ts IH] using tree_ind'. intros x H. inversion T as [r' k ts' G E F P]; subst. rewrite Forall_forall in IH, F, P. rewrite kill_node in H. cbn [fst root] in *. apply in_app_or in H as [H|[<-|[]]]; [|constructor]. apply in_concat in H as (l & I & H). apply in_map_iff in I as (u & <- & I). apply in_rev in I. unfold step in H. destruct (refs_of s (root u) =? 1)%N eqn:E1; [|destruct H]. apply N.eqb_eq in E1. apply (IH u I (F u I)) in H. eapply goes_trans; [|exact H].
    destruct (P u I) as (ku & Gu & Eu). apply (refs_goes h s (root u) ku V Gu) in E1; [|congruence]. eapply G_child; [constructor|apply A1; exists ku; auto|tauto|tauto].
  - intros H. induction H as [|x c _ IH C Hc N]; [apply in_kill_root|]. apply A1 in C. destruct (kill_closed _ _ (v_good _ _ V) T x c IH C) as [I|I]; [exact I|]. exfalso. apply (kill_not1 _ _ _ I). destruct C as (k & G & E). apply (refs_goes h s c k V G); [congruence|auto].
Qed.
Lemma take_cut s t : good s -> tree_at s t -> (forall x k, rget s x = Some k -> r_parent k <> None -> (0 < r_refs k)%N) ->
  let D := fst (kill (refs_of s) t) in forall x, rget (take D (snd (kill (refs_of s) t)) s) x = if in_dec Nat.eq_dec x D then None else option_map (cut D) (rget s x).
Proof.
  intros Gd T Pos D x. pose proof (kill_closed _ _ Gd T) as Cl. destruct (g_agree _ Gd) as (A1 & _). set (E := snd (kill (refs_of s) t)) in *.
  assert (DE : forall y, In y E -> ~ In y D).
  { intros y I J. apply kill_1 in J as [->|J]; [|exact (kill_not1 _ _ _ I J)]. destruct (kill_det _ _ _ T I) as (p & Pp & Ip). apply (acyclic _ (g_rank _ Gd) _ _ Pp). apply (flat_above _ Gd _ T). apply (kill_in (refs_of s)). auto. }
  rewrite take_get. unfold mem at 1. destruct (in_dec Nat.eq_dec x D) as [|N]; [reflexivity|]. destruct (rget s x) as [k|] eqn:G; [|reflexivity]. cbn [option_map]. f_equal. unfold detach, cut.
  assert (Me : mem x E = match r_parent k with Some p => if in_dec Nat.eq_dec p D then true else false | None => false end).
  { destruct (mem_spec x E) as [I|I].
    - destruct (kill_det _ _ _ T I) as (p & (k' & G' & Ep) & Ip). assert (k' = k) by congruence. subst k'. rewrite Ep. destruct (in_dec Nat.eq_dec p D) as [_|C]; [reflexivity|contradiction].
    - destruct (r_parent k) as [p|] eqn:Ep; [|reflexivity]. destruct (in_dec Nat.eq_dec p D) as [C|_]; [|reflexivity]. destruct (Cl p x C) as [H|H]; [exists k; auto|contradiction|contradiction]. }
  rewrite <- Me. f_equal.
  - apply filter_ext_in. intros c I. rewrite mem_app. destruct (mem_spec c E) as [H|H].
    + exfalso. destruct (kill_det _ _ _ T H) as (p & Pp & Ip). apply N. assert (Pc : parent_of s c x) by (apply A1; exists k; auto). rewrite (parent_fun _ _ _ _ Pc Pp). exact Ip.
    + rewrite orb_false_r. unfold mem. destruct (in_dec Nat.eq_dec c D); reflexivity.
  - destruct (mem_spec x E) as [I|I]; [|reflexivity]. apply dec_ok, (Pos x k G). destruct (kill_det _ _ _ T I) as (p & (k' & G' & Ep) & _). congruence.
Qed.
Lemma pos_refs h s : inv h s -> forall x k, rget s x = Some k -> r_parent k <> None -> (0 < r_refs k)%N.
Proof. intros V x k G P. destruct (v_counts _ _ V x k G) as [_ ->]. unfold pa. destruct (r_parent k); [lia|contradiction]. Qed.
Lemma take_counts hf s t D : good s -> tree_at s t -> counts hf s -> D = fst (kill (refs_of s) t) -> counts hf (take D (snd (kill (refs_of s) t)) s).
Proof.
  intros Gd T C -> x k G. assert (Pos : forall x k, rget s x = Some k -> r_parent k <> None -> (0 < r_refs k)%N) by (intros y ky Gy Py; destruct (C y ky Gy) as [_ ->]; unfold pa; destruct (r_parent ky); [lia|contradiction]).
  rewrite (take_cut _ _ Gd T Pos) in G. destruct (in_dec Nat.eq_dec x (fst (kill (refs_of s) t))); [discriminate G|]. destruct (rget s x) as [k0|] eqn:G0; [|discriminate G]. cbn [option_map] in G. injection G as <-. destruct (C x k0 G0) as [B E]. split; [exact B|]. unfold cut, pa, un. cbn [r_refs r_parent r_init]. rewrite E. unfold pa, un. destruct (r_parent k0) as [p|]; [|reflexivity]. destruct (in_dec Nat.eq_dec p (fst (kill (refs_of s) t))); [lia|reflexivity].
Qed.

Lemma counts_other hf hf' s : (forall x, live s x -> hf x = hf' x) -> counts hf s -> counts hf' s.
Proof. intros H C x k G. rewrite <- H by (eapply get_live, G). exact (C x k G). Qed.
Lemma held_same h o : (match o with Ref _ | Unref _ => False | _ => True end) -> forall x, held (o :: h) x = held h x.
Proof. destruct o; cbn; tauto. Qed.

Lemma do_unref_ok h s r : inv h s -> may h s (Unref r) -> exists s' tr z, call s (Unref r) = Ok (s', tr, z) /\ inv (Unref r :: h) s' /\ effect h s (Unref r) s' tr z.
Proof.
  intros V [L M]. destruct (live_get _ _ L) as (k & G). pose proof (v_good _ _ V) as Gd. destruct (tree_exists _ Gd r L) as (t & Er & T). destruct (v_counts _ _ V r k G) as [Bd E].
  pose proof (unref_lemma s t k Gd T ltac:(rewrite Er; exact G)) as U. rewrite Er in U. cbn [call]. rewrite U. clear U.
  assert (Un : unfinished s r <-> r_init k = false) by (unfold unfinished; split; [intros (k' & G' & H); congruence|intros H; exists k; auto]).
  assert (Pa : (exists p, parent_of s r p) <-> exists p, r_parent k = Some p) by (unfold parent_of; split; [intros (p & k' & G' & H); exists p; congruence|intros (p & H); exists p, k; auto]).
  assert (La : last_ref k = true <-> held h r = 0 \/ held h r = 1 /\ (forall p, ~ parent_of s r p) /\ ~ unfinished s r).
  { assert (NP : (forall p, ~ parent_of s r p) <-> r_parent k = None). { split; [intros H; destruct (r_parent k) as [p|] eqn:Ep; [destruct (H p); exists k; auto|reflexivity]|intros H p (k' & G' & H'); congruence]. }
    rewrite NP, Un. unfold last_ref. rewrite E. unfold pa, un. rewrite Un in M. clear - M. destruct (r_parent k) as [p|], (r_init k); split; intros H; try (destruct H as [H|(H & H1 & H2)]; try discriminate); try lia.
    all: try (destruct (held h r) as [|[|n]]; [left; reflexivity|right; split; [reflexivity|split; [reflexivity|discriminate]]|lia]).
    all: try (specialize (M eq_refl); lia). }
  destruct (last_ref k).
  - cbn [obind]. eexists _, _, _. split; [reflexivity|]. split.
    + constructor.
      * apply take_good; [exact Gd|apply kill_closed; assumption].
      * assert (N : ~ live (take (fst (kill (refs_of s) t)) (snd (kill (refs_of s) t)) s) r) by (unfold live; rewrite take_get; destruct (mem_spec r (fst (kill (refs_of s) t))) as [_|C]; [tauto|exfalso; apply C; rewrite <- Er; apply in_kill_root]).
        apply (counts_other (held h)); [|apply take_counts; [exact Gd|exact T|exact (v_counts _ _ V)|reflexivity]]. intros x Lx. cbn [held]. destruct (Nat.eqb_spec r x) as [->|]; [contradiction|reflexivity].
      * intros x Hx. rewrite take_length in Hx. cbn [held]. destruct (r =? x); [rewrite (v_new _ _ V x Hx); reflexivity|apply (v_new _ _ V x Hx)].
    + cbn [effect]. split; [apply take_length|]. split.
      * intros _. split; [apply kill_nodup, (flat_nodup _ Gd _ T)|]. split; [intros x; rewrite <- Er; symmetry; apply kill_goes; assumption|]. split; [apply kill_order; assumption|]. split; [apply kill_siblings; assumption|]. apply (take_cut _ _ Gd T (pos_refs _ _ V)).
      * intros H. exfalso. assert (X : held h r = 0 \/ held h r = 1 /\ (forall p, ~ parent_of s r p) /\ ~ unfinished s r) by (apply La; reflexivity). destruct X as [X|(X & X1 & X2)]; destruct H as [H|(H & [(p & Hp)|H'])]; try lia; [exact (X1 p Hp)|contradiction].
  - cbn [obind]. eexists _, _, _. split; [reflexivity|]. assert (Nz : 0 < held h r) by (destruct (held h r); [exfalso; assert (false = true) by (apply La; left; reflexivity); discriminate|lia]). assert (Ed : dec (r_refs k) = (r_refs k - 1)%N) by (apply dec_ok; rewrite E; lia). assert (Lr : r < length s) by (eapply rget_lt, G). split.
    + constructor.
      * eapply same_good; [|exact Gd]. apply (same_set s r k); auto.
      * intros x kx. rewrite rget_rset by exact Lr. cbn [held]. rewrite (Nat.eqb_sym r x). destruct (Nat.eqb_spec x r) as [->|N]; intros Gx; [|exact (v_counts _ _ V x kx Gx)]. injection Gx as <-. unfold pa, un. cbn [set_refs r_parent r_init r_refs]. rewrite Ed, E. fold (pa k) (un k). clear - Nz Bd. split; lia.
      * intros x Hx. rewrite rset_length in Hx by exact Lr. cbn [held]. destruct (r =? x); [rewrite (v_new _ _ V x Hx); reflexivity|apply (v_new _ _ V x Hx)].
    + cbn [effect]. split; [apply rset_length, Lr|]. split; [intros H; exfalso; apply La in H; discriminate H|]. intros _. split; [reflexivity|]. intros x. rewrite rget_rset by exact Lr. destruct (Nat.eqb_spec x r) as [->|N]; [rewrite G; cbn [option_map]; rewrite Ed; reflexivity|]. destruct (rget s x); reflexivity.
Qed.
Lemma do_fail_ok h s r : inv h s -> may h s (CreateFail r) -> exists s' tr z, call s (CreateFail r) = Ok (s', tr, z) /\ inv (CreateFail r :: h) s' /\ effect h s (CreateFail r) s' tr z.
Proof.
  intros V ((k & G & I) & Hr & Hc). pose proof (v_good _ _ V) as Gd. destruct (tree_exists _ Gd r (get_live _ _ _ G)) as ([r' ts] & Er & T). cbn [root] in Er. subst r'.
  assert (R : forall u, In u ts -> refs_of s (root u) = 1%N).
  { inversion T as [r' k' ts' G' E F P]; subst. rewrite Forall_forall in P. intros u Iu. destruct (P u Iu) as (ku & Gu & Eu). apply (refs_goes h s (root u) ku V Gu); [congruence|]. apply Hc. apply (proj1 (g_agree _ Gd)). apply P, Iu. }
  destruct (fail_lemma s r ts Gd T R) as (tr & Ek & U). cbn [call]. rewrite U. cbn [obind]. eexists _, _, _. split; [reflexivity|]. split.
  - constructor.
    + apply take_good; [exact Gd|apply kill_closed; assumption].
    + apply (counts_other (held h)); [reflexivity|]. apply take_counts; [exact Gd|exact T|exact (v_counts _ _ V)|reflexivity].
    + intros x Hx. rewrite take_length in Hx. apply (v_new _ _ V x Hx).
  - cbn [effect]. split; [apply take_length|]. pose proof (kill_nodup (refs_of s) _ (flat_nodup _ Gd _ T)) as ND. pose proof (kill_goes h s _ V T) as KG. pose proof (take_cut _ _ Gd T (pos_refs _ _ V)) as TC. cbn zeta in TC. rewrite Ek in *. cbn [root] in KG. apply nodup_app_inv in ND as (N1 & _ & N2). split; [exact N1|]. split; [intros H; apply (N2 r H); left; reflexivity|]. split.
    + intros x. rewrite <- KG, in_app_iff. cbn [In]. split; [intros [H|[H|[]]]|intros [H|H]]; auto.
    + intros x. rewrite TC. assert (Eq : forall y, In y (tr ++ [r]) <-> In y (r :: tr)) by (intros y; rewrite in_app_iff; cbn [In]; tauto).
      destruct (in_dec Nat.eq_dec x (tr ++ [r])) as [H|H], (in_dec Nat.eq_dec x (r :: tr)) as [H'|H']; try (rewrite Eq in H; contradiction); [reflexivity|]. destruct (rget s x) as [kx|]; [|reflexivity]. cbn [option_map]. f_equal. unfold cut.
      assert (Ea : match r_parent kx with Some p => if in_dec Nat.eq_dec p (tr ++ [r]) then true else false | None => false end = match r_parent kx with Some p => if in_dec Nat.eq_dec p (r :: tr) then true else false | None => false end).
      { destruct (r_parent kx) as [p|]; [|reflexivity]. destruct (in_dec Nat.eq_dec p (tr ++ [r])) as [J|J], (in_dec Nat.eq_dec p (r :: tr)) as [J'|J']; try reflexivity; rewrite Eq in J; contradiction. }
      rewrite Ea. f_equal. apply filter_ext. intros c. destruct (in_dec Nat.eq_dec c (tr ++ [r])) as [J|J], (in_dec Nat.eq_dec c (r :: tr)) as [J'|J']; try reflexivity; rewrite Eq in J; contradiction.
Qed.
