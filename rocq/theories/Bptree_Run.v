(* Histories and iteration. *)
From Verif Require Import Base Bptree_Model Bptree_Arr Bptree_Proofs Bptree_Ins Bptree_Del Bptree_Spec Bptree_Api Bptree_Sim.
From Coq Require Import Sorted Permutation.

(* ---------- histories ---------- *)
Definition is_alias (o : bop) : bool := negb (no_alias o).
Definition aliases (ops : list bop) : nat := length (filter is_alias ops).
Definition gle (n : nat) (gs : list grp) : Prop := forall g, In g gs -> length (fst g) <= n.

Lemma strip_le k l : length (strip k l) <= length l.
Proof. unfold strip. induction l as [|x l IH]; cbn; [lia|]. destruct (negb (keqb k x)); cbn; lia. Qed.
Lemma gwrite_le n k v gs : 1 <= n -> gle n gs -> gle n (gwrite k v gs).
Proof.
  intros Hn H g Hg. unfold gwrite in Hg. destruct (glookup k gs).
  - apply in_map_iff in Hg as (g' & <- & Hg). destruct (mem k (fst g')); cbn; apply (H g' Hg).
  - apply in_app_iff in Hg as [Hg|[<-|[]]]; auto.
Qed.
Lemma gdel_le n k gs : gle n gs -> gle n (gdel k gs).
Proof.
  intros H g Hg. apply filter_In in Hg as [Hg _]. apply in_map_iff in Hg as (g' & <- & Hg). cbn [fst].
  pose proof (strip_le k (fst g')). specialize (H g' Hg). lia.
Qed.
Lemma gname_le n k a gs : gle n gs -> gle (S n) (gname k a gs).
Proof.
  intros H g Hg. apply filter_In in Hg as [Hg _]. apply in_map_iff in Hg as (g' & <- & Hg).
  pose proof (strip_le a (fst g')). specialize (H g' Hg). destruct (mem k (fst g')); cbn [fst length]; lia.
Qed.
Lemma gstep_le n gs o : 1 <= n -> gle n gs -> gle (n + aliases [o]) (fst (gstep gs o)).
Proof.
  intros Hn H. destruct o as [k d z|k a f|k cb|k]; cbn [aliases gstep fst].
  - rewrite Nat.add_0_r. apply gwrite_le; auto.
  - unfold aliases. cbn [filter is_alias no_alias negb length].
    assert (W : gle (n + 1) gs) by (intros g Hg; specialize (H g Hg); lia).
    destruct (glookup k gs) as [g|]; auto. destruct (mem a (fst g)); auto. match goal with |- context [if ?b then _ else _] => destruct b end; auto.
    cbn [fst]. rewrite Nat.add_1_r. apply gname_le; auto.
  - rewrite Nat.add_0_r. destruct (cb _) as [[| |] v]; auto using gwrite_le, gdel_le.
  - rewrite Nat.add_0_r. apply gdel_le; auto.
Qed.
Lemma aliases_cons o ops : aliases (o :: ops) = aliases [o] + aliases ops.
Proof. unfold aliases. cbn [filter]. destruct (is_alias o); reflexivity. Qed.

Lemma gle_small n zs : gle n (map snd zs) -> (N.of_nat n < 2 ^ 32)%N -> small zs.
Proof. intros H Hn r g Hg. assert (length (fst g) <= n) by (apply H, in_map_iff; exists (r, g); auto). lia. Qed.

Lemma run_sim ops : forall s zs n, binv s zs -> 1 <= n -> gle n (map snd zs) -> (N.of_nat (n + aliases ops) < 2 ^ 32)%N -> safe (map snd zs) ops ->
  exists s' zs', brun s ops = Ok (s', snd (grun (map snd zs) ops)) /\ binv s' zs' /\ small zs' /\ map snd zs' = fst (grun (map snd zs) ops) /\ order s' = order s.
Proof.
  induction ops as [|o ops IH]; intros s zs n Hb Hn Hg Hl Hs.
  - exists s, zs. cbn. split; auto. split; auto. split; auto. unfold aliases in Hl. cbn in Hl. eapply gle_small; eauto. lia.
  - cbn [safe] in Hs. destruct Hs as [Hs1 Hs2]. rewrite aliases_cons in Hl.
    destruct (step_sim s zs o Hb) as (s1 & zs1 & E1 & B1 & M1 & O1); auto.
    { eapply gle_small; eauto. lia. }
    destruct (IH s1 zs1 (n + aliases [o]) B1) as (s2 & zs2 & E2 & B2 & Sm & M2 & O2).
    + lia.
    + rewrite M1. apply gstep_le; auto.
    + lia.
    + rewrite M1. exact Hs2.
    + exists s2, zs2. cbn [brun grun]. rewrite E1. cbn [obind fst snd]. rewrite E2. cbn [obind fst snd]. rewrite M1 in *.
      split; auto. split; auto. split; auto. split; auto. congruence.
Qed.

Definition empty (o : nat) : bpt := {| root := None; order := o; meta := 40; dsize := 0; nent := 0;
               recs := fun _ => None; kobj := fun _ => None; bfresh := 1 |}.
Lemma create_ok o : 4 <= o -> bptree_create o = Some (empty o).
Proof. intros H. unfold bptree_create. destruct (Nat.leb_spec o 3); [lia|reflexivity]. Qed.
Lemma empty_binv o : 4 <= o -> binv (empty o) [].
Proof.
  intros H. split.
  - constructor; cbn; auto.
  - split; [repeat split|]. constructor; cbn; auto; try constructor; try contradiction.
    intros (g & [] & _).
Qed.

Lemma reach o ops : 4 <= o -> (N.of_nat (1 + aliases ops) < 2 ^ 32)%N -> safe [] ops ->
  exists s zs, brun (empty o) ops = Ok (s, snd (grun [] ops)) /\ binv s zs /\ small zs /\ map snd zs = fst (grun [] ops) /\ order s = o.
Proof.
  intros Ho Hl Hs. destruct (run_sim ops (empty o) [] 1 (empty_binv o Ho)) as (s & zs & A); auto.
  - intros g [].
  - exists s, zs. exact A.
Qed.

(* ---------- alias-free histories ---------- *)
Definition single (gs : list grp) (m : pmap) : Prop :=
  (forall g, In g gs -> exists k, fst g = [k]) /\ (forall k, option_map snd (glookup k gs) = m k).
Lemma single_lookup gs m k g : single gs m -> glookup k gs = Some g -> fst g = [k].
Proof.
  intros [H _] E. apply find_some in E as [Hg Hk]. destruct (H g Hg) as [k' E]. rewrite E in *.
  apply mem_in in Hk as [->|[]]. reflexivity.
Qed.
Lemma single_out gs m k : single gs m -> option_map out (glookup k gs) = option_map pout (m k).
Proof.
  intros Hs. pose proof (single_lookup gs m k) as L. destruct Hs as [H1 H2]. rewrite <- H2.
  destruct (glookup k gs) as [g|] eqn:E; auto. cbn. unfold out, pout. rewrite (L g); auto. split; auto.
Qed.
Lemma glookup_cons k g gs : glookup k (g :: gs) = if mem k (fst g) then Some g else glookup k gs.
Proof. reflexivity. Qed.
Lemma mem_one k x : mem k [x] = keqb k x.
Proof. unfold mem. cbn. apply Bool.orb_false_r. Qed.

Lemma glookup_app k a b : glookup k (a ++ b) = match glookup k a with Some g => Some g | None => glookup k b end.
Proof. unfold glookup. induction a as [|g a IH]; cbn; auto. destruct (mem k (fst g)); auto. Qed.

Lemma single_write gs m k v : single gs m -> single (gwrite k v gs) (pset m k (Some v)).
Proof.
  intros Hs. pose proof Hs as [H1 H2]. unfold gwrite. destruct (glookup k gs) as [g0|] eqn:E.
  - split.
    + intros g Hg. apply in_map_iff in Hg as (g' & <- & Hg). destruct (mem k (fst g')); cbn; auto.
    + intros k'. unfold pset. rewrite <- H2. destruct (keqb_spec k k') as [<-|Hne].
      * clear -E. induction gs as [|g gs IH]; cbn [map]; [discriminate|]. rewrite !glookup_cons in *.
        destruct (mem k (fst g)) eqn:Em; cbn [fst]; rewrite Em; auto.
      * clear -Hne H1. induction gs as [|g gs IH]; cbn [map]; auto. rewrite !glookup_cons.
        destruct (H1 g) as [x Ex]; [left; auto|]. rewrite Ex, mem_one. destruct (keqb_spec k x) as [<-|]; cbn [fst].
        -- rewrite ?mem_one. destruct (keqb_spec k' k); [congruence|]. apply IH. intros; apply H1; right; auto.
        -- rewrite Ex, mem_one. destruct (keqb_spec k' x); auto. apply IH. intros; apply H1; right; auto.
  - split.
    + intros g Hg. apply in_app_iff in Hg as [Hg|[<-|[]]]; auto. exists k. auto.
    + intros k'. unfold pset. rewrite glookup_app, <- H2. rewrite glookup_cons. cbn [fst]. rewrite mem_one.
      destruct (keqb_spec k k') as [<-|Hne].
      * rewrite E. destruct (keqb_spec k k); [|congruence]. reflexivity.
      * destruct (glookup k' gs); auto. destruct (keqb_spec k' k); [congruence|]. reflexivity.
Qed.
Lemma single_del gs m k : single gs m -> single (gdel k gs) (pset m k None).
Proof.
  intros [H1 H2]. split.
  - intros g Hg. apply filter_In in Hg as [Hg Hn]. apply in_map_iff in Hg as (g' & <- & Hg). destruct (H1 g' Hg) as [x E]. cbn [fst] in *.
    rewrite E in *. unfold strip in *. cbn in *. destruct (keqb k x); cbn in *; [discriminate|]. eauto.
  - intros k'. unfold pset. rewrite <- H2. clear H2. unfold gdel. induction gs as [|g gs IH]; cbn [map filter].
    + destruct (keqb k k'); auto.
    + destruct (H1 g) as [x Ex]; [left; auto|]. rewrite glookup_cons, Ex, mem_one.
      unfold strip at 1. cbn [filter]. destruct (keqb_spec k x) as [<-|Hd]; cbn [negb].
      * unfold has_name at 1. cbn [fst]. rewrite IH by (intros; apply H1; right; auto). destruct (keqb_spec k k'), (keqb_spec k' k); auto; congruence.
      * unfold has_name at 1. cbn [fst]. rewrite glookup_cons. cbn [fst]. unfold strip at 1. cbn [filter].
        destruct (keqb_spec k x) as [|_]; [congruence|]. cbn [negb]. rewrite mem_one.
        destruct (keqb_spec k' x) as [->|].
        -- destruct (keqb_spec k x); [congruence|]. reflexivity.
        -- apply IH. intros; apply H1; right; auto.
Qed.
Lemma single_step gs m o : single gs m -> no_alias o = true -> single (fst (gstep gs o)) (pstep m o) /\ safe_step gs o.
Proof.
  intros Hs Hna. split.
  - destruct o as [k d z|k a f|k cb|k]; cbn [gstep fst pstep]; [apply single_write; auto|discriminate| |apply single_del; auto].
    rewrite (single_out gs m k Hs). destruct (cb _) as [[| |] v]; auto using single_write, single_del.
  - unfold safe_step. destruct (removes gs o) as [k|]; auto. intros g k' E Hin. rewrite (single_lookup gs m k g Hs E) in Hin.
    destruct Hin as [<-|[]]. auto.
Qed.
Lemma single_run ops : forall gs m, single gs m -> forallb no_alias ops = true ->
  single (fst (grun gs ops)) (fold_left pstep ops m) /\ safe gs ops.
Proof.
  induction ops as [|o ops IH]; intros gs m Hs Hna; cbn [grun fold_left safe fst]; auto.
  cbn in Hna. apply andb_prop in Hna as [H1 H2]. destruct (single_step gs m o Hs H1) as [A B].
  destruct (IH _ _ A H2) as [C D]. auto.
Qed.
Lemma single_nil : single [] (fun _ => None).
Proof. split; [intros g []|reflexivity]. Qed.
Lemma no_aliases ops : forallb no_alias ops = true -> aliases ops = 0.
Proof.
  unfold aliases. induction ops as [|o ops IH]; cbn; auto. intros H. apply andb_prop in H as [H1 H2]. unfold is_alias at 1. rewrite H1. cbn. auto.
Qed.
