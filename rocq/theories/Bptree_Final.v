(* Shape, accounting and aliases of the B+ tree, in terms of the specification. *)
From Verif Require Import Base Bptree_Model Bptree_Arr Bptree_Proofs Bptree_Ins Bptree_Del Bptree_Spec Bptree_Api Bptree_Sim Bptree_Run Bptree_Iter.
From Coq Require Import Sorted Permutation.

Lemma reaches_inv o ops s cs : safe [] ops -> few_aliases ops -> reaches o ops s cs ->
  exists zs, binv s zs /\ small zs /\ map snd zs = stored ops /\ order s = o /\ cs = snd (grun [] ops).
Proof.
  intros Hs Hf (s0 & E0 & E). assert (Ho : 4 <= o).
  { unfold bptree_create in E0. destruct (Nat.leb_spec o 3); [discriminate|lia]. }
  rewrite (create_ok o Ho) in E0. injection E0 as <-.
  destruct (reach o ops Ho) as (s1 & zs & E1 & B1 & S1 & M1 & O1); auto.
  { unfold few_aliases in Hf. unfold aliases, is_alias. lia. }
  rewrite E in E1. injection E1 as -> ->. exists zs. auto.
Qed.
Lemma reaches_ex o ops : 4 <= o -> safe [] ops -> few_aliases ops -> exists s, reaches o ops s (snd (grun [] ops)).
Proof.
  intros Ho Hs Hf. destruct (reach o ops Ho) as (s1 & zs & E1 & _); auto.
  { unfold few_aliases in Hf. unfold aliases, is_alias. lia. }
  exists s1. exists (empty o). split; [apply create_ok; auto|exact E1].
Qed.

(* ---------- C10 ---------- *)
Lemma free_facts ops : forallb no_alias ops = true -> safe [] ops /\ few_aliases ops /\
  forall k, option_map out (glookup k (stored ops)) = option_map pout (prun ops k).
Proof.
  intros H. destruct (single_run ops [] _ single_nil H) as [A B]. split; auto. split.
  - unfold few_aliases. pose proof (no_aliases ops H) as X. unfold aliases, is_alias in X. rewrite X. reflexivity.
  - intros k. apply single_out. exact A.
Qed.
Lemma map_lemma o ops : 4 <= o -> forallb no_alias ops = true ->
  exists s cs, reaches o ops s cs /\ forall k, bptree_lookup s k = Ok (option_map pout (prun ops k)).
Proof.
  intros Ho H. destruct (free_facts ops H) as (A & B & C). destruct (reaches_ex o ops Ho A B) as (s & R).
  exists s, (snd (grun [] ops)). split; auto. intros k. destruct (reaches_inv o ops s _ A B R) as (zs & Hb & Hsm & Hm & _).
  rewrite (lookup_sim s zs k Hb Hsm), Hm, C. reflexivity.
Qed.
Lemma alias_map_lemma o ops : 4 <= o -> safe [] ops -> few_aliases ops ->
  exists s, reaches o ops s (snd (grun [] ops)) /\ forall k, bptree_lookup s k = Ok (option_map out (glookup k (stored ops))).
Proof.
  intros Ho A B. destruct (reaches_ex o ops Ho A B) as (s & R). exists s. split; auto.
  intros k. destruct (reaches_inv o ops s _ A B R) as (zs & Hb & Hsm & Hm & _). rewrite <- Hm. apply lookup_sim; auto.
Qed.

(* ---------- names ---------- *)
Lemma NoDup_app_ok {A} (a b : list A) : NoDup a -> NoDup b -> (forall x, In x a -> ~ In x b) -> NoDup (a ++ b).
Proof.
  induction a as [|x a IH]; cbn; auto. intros Ha Hb H. inversion Ha; subst. constructor.
  - rewrite in_app_iff. intros [X|X]; [auto|]. apply (H x); auto.
  - apply IH; auto.
Qed.
Lemma names_nodup (Z : list (N * grp)) : NoDup (map fst Z) -> (forall r g, In (r, g) Z -> NoDup (fst g)) ->
  (forall k r g r' g', In (r, g) Z -> In (r', g') Z -> In k (fst g) -> In k (fst g') -> r = r') -> NoDup (names (map snd Z)).
Proof.
  unfold names. induction Z as [|[r g] Z IH]; cbn [map flat_map snd fst]; intros N1 N2 N3; [constructor|].
  inversion N1 as [|? ? Hn N1']; subst. apply NoDup_app_ok.
  - apply (N2 r g). left; auto.
  - apply IH; auto.
    + intros r' g' Hin. apply (N2 r' g'). right; auto.
    + intros k r1 g1 r2 g2 H1 H2. apply N3; right; auto.
  - intros k Hk Hin. apply in_flat_map in Hin as (g' & Hg' & Hk'). apply in_map_iff in Hg' as ([r' g2] & <- & Hg').
    apply Hn. rewrite (N3 k r g r' g2); auto; [|left; auto|right; auto]. apply in_map_iff. exists (r', g2). auto.
Qed.
Lemma names_perm s zs : binv s zs -> Permutation (rkeys (root s)) (names (map snd zs)).
Proof.
  intros (T & _ & Z). apply NoDup_Permutation.
  - apply SS_NoDup, rkeys_sorted; auto.
  - apply names_nodup.
    + apply (zi_nd _ _ _ _ Z).
    + intros r g Hg. destruct (zi_g _ _ _ _ Z r g Hg); tauto.
    + intros k r g r' g' H1 H2 K1 K2. eapply (rents_inj s k); eauto; apply (zi_e _ _ _ _ Z); eauto.
  - intros k. rewrite <- rents_keys by auto. unfold names. rewrite in_map_iff, in_flat_map. split.
    + intros ([k' r] & <- & Hin). apply (zi_e _ _ _ _ Z) in Hin as (g & Hg & Hk). exists g. split; auto. apply in_map_iff. exists (r, g). auto.
    + intros (g & Hg & Hk). apply in_map_iff in Hg as ([r g'] & <- & Hg). exists (k, r). split; auto. apply (zi_e _ _ _ _ Z). eauto.
Qed.
Lemma names_length s zs : binv s zs -> length (rents (root s)) = length (names (map snd zs)).
Proof. intros H. rewrite (fuel_ents s zs H). apply Permutation_length, names_perm; auto. Qed.

(* ---------- C11-C13 ---------- *)
Lemma full_iter_lemma o ops s cs fuel : safe [] ops -> few_aliases ops -> reaches o ops s cs -> length (names (stored ops)) < fuel ->
  exists l, iter_all fuel s (bptree_iter_create None None) = Ok (Some l) /\ lists l (fun _ => True) (stored ops).
Proof.
  intros A B R Hf. destruct (reaches_inv o ops s cs A B R) as (zs & Hb & Hsm & Hm & _). rewrite <- Hm in *.
  rewrite <- (names_length s zs Hb) in Hf. destruct (iter_from_first s zs Hb Hsm None fuel Hf) as (l & E & L). eauto.
Qed.
Lemma until_iter_lemma o ops s cs ke fuel : safe [] ops -> few_aliases ops -> reaches o ops s cs -> length (names (stored ops)) < fuel ->
  exists l, iter_all fuel s (bptree_iter_create None (Some ke)) = Ok (Some l) /\ lists l (fun k => str_le k ke) (stored ops).
Proof.
  intros A B R Hf. destruct (reaches_inv o ops s cs A B R) as (zs & Hb & Hsm & Hm & _). rewrite <- Hm in *.
  rewrite <- (names_length s zs Hb) in Hf. destruct (iter_from_first s zs Hb Hsm (Some ke) fuel Hf) as (l & E & L). eauto.
Qed.
Lemma range_iter_lemma o ops s cs ks ke fuel : safe [] ops -> few_aliases ops -> reaches o ops s cs -> length (names (stored ops)) < fuel ->
  exists l (from : list ascii -> bool), iter_all fuel s (bptree_iter_create (Some ks) (Some ke)) = Ok (Some l) /\
    lists l (fun k => from k = true /\ str_le k ke) (stored ops) /\ (forall k, str_le ks k -> from k = true) /\
    (glookup ks (stored ops) <> None -> lists l (fun k => str_le ks k /\ str_le k ke) (stored ops)).
Proof.
  intros A B R Hf. destruct (reaches_inv o ops s cs A B R) as (zs & Hb & Hsm & Hm & _). rewrite <- Hm in *.
  rewrite <- (names_length s zs Hb) in Hf. destruct (iter_from_start s zs Hb Hsm ks (Some ke) fuel Hf) as (from & l & E & L & F1 & F2).
  exists l, from. split; auto. split; auto. split; auto. intros Hp. destruct L as [L1 L2]. split; auto. intros k v. rewrite L2.
  split; intros (E1 & E2 & E3); split; auto; split; auto; apply (F2 Hp k); auto; destruct (glookup k (map snd zs)); discriminate.
Qed.
Lemma from_iter_lemma o ops s cs ks fuel : safe [] ops -> few_aliases ops -> reaches o ops s cs -> length (names (stored ops)) < fuel ->
  glookup ks (stored ops) <> None ->
  exists l, iter_all fuel s (bptree_iter_create (Some ks) None) = Ok (Some l) /\ lists l (fun k => str_le ks k) (stored ops).
Proof.
  intros A B R Hf Hp. destruct (reaches_inv o ops s cs A B R) as (zs & Hb & Hsm & Hm & _). rewrite <- Hm in *.
  rewrite <- (names_length s zs Hb) in Hf. destruct (iter_from_start s zs Hb Hsm ks None fuel Hf) as (from & l & E & L & F1 & F2).
  exists l. split; auto. destruct L as [L1 L2]. split; auto. intros k v. rewrite L2.
  split; [intros (E1 & E2 & E3)|intros (E1 & E2)]; split; auto; [|split; [|exact I]]; apply (F2 Hp k); auto; destruct (glookup k (map snd zs)); discriminate.
Qed.
Lemma prefix_iter_lemma o ops s cs p fuel : safe [] ops -> few_aliases ops -> reaches o ops s cs -> length (names (stored ops)) < fuel ->
  exists l, iter_all fuel s (bptree_iter_create_prefix p) = Ok (Some l) /\ lists l (fun k => exists r, k = p ++ r) (stored ops).
Proof.
  intros A B R Hf. destruct (reaches_inv o ops s cs A B R) as (zs & Hb & Hsm & Hm & _). rewrite <- Hm in *.
  rewrite <- (names_length s zs Hb) in Hf. apply (iter_prefix s zs Hb Hsm p fuel Hf).
Qed.

(* ---------- C14 ---------- *)
Lemma wf_balanced o h : 4 <= o -> forall (rt : bool) t, wf o h (if rt then 1 else minn o h) t -> balanced o h rt t.
Proof.
  intros Ho. induction h as [|h IH]; intros rt t W; inv_wf W; cbn [balanced].
  - split; [reflexivity|]. split; [auto|]. split; [lia|]. destruct rt; [lia|]. unfold minn, cut in Hb. lia.
  - split; [lia|]. split; [exact Hlen|]. split; [lia|]. split.
    + destruct rt; [lia|]. unfold minn, cut in Hb. lia.
    + replace (S h - 1) with h by lia. clear W Hb Hlen. induction cs as [|c cs IHc]; [exact I|]. split.
      * apply IH. apply Hc. left; auto.
      * apply IHc. intros; apply Hc; right; auto.
Qed.
Lemma wf_depth o h : forall m t, wf o h m t -> left_depth t = h.
Proof.
  induction h as [|h IH]; intros m t W; inv_wf W; auto. destruct cs as [|c cs]; [discriminate|]. cbn. f_equal. eapply IH. apply Hc. left; auto.
Qed.
Lemma flat_ge (cs : list tree) n : (forall c, In c cs -> n <= length (keys c)) -> length cs * n <= length (flat_map keys cs).
Proof.
  induction cs as [|c cs IH]; cbn; intros H; [lia|]. rewrite app_length. pose proof (H c (or_introl eq_refl)).
  assert (length cs * n <= length (flat_map keys cs)) by (apply IH; intros; apply H; auto). lia.
Qed.
Lemma wf_count o h : 4 <= o -> forall t, wf o h (minn o h) t -> cut o ^ h * cut (o - 1) <= length (keys t).
Proof.
  intros Ho. induction h as [|h IH]; intros t W; inv_wf W; cbn [keys].
  - cbn [minn] in Hb. rewrite Nat.pow_0_r. lia.
  - cbn [minn] in Hb. pose proof (flat_ge cs (cut o ^ h * cut (o - 1)) (fun c Hin => IH c (Hc c Hin))) as F.
    rewrite Nat.pow_succ_r'. rewrite <- Nat.mul_assoc. etransitivity; [|exact F]. apply Nat.mul_le_mono_r. lia.
Qed.
Lemma wf_count_root o h t : 4 <= o -> wf o (S h) 1 t -> 2 * cut o ^ h * cut (o - 1) <= length (keys t).
Proof.
  intros Ho W. inv_wf W. cbn [keys]. pose proof (flat_ge cs (cut o ^ h * cut (o - 1)) (fun c Hin => wf_count o h Ho c (Hc c Hin))) as F.
  rewrite <- Nat.mul_assoc. etransitivity; [|exact F]. apply Nat.mul_le_mono_r. lia.
Qed.
Lemma balanced_lemma o ops s cs : safe [] ops -> few_aliases ops -> reaches o ops s cs ->
  match root s with
  | None => names (stored ops) = []
  | Some t => balanced o (bptree_get_height s) true t /\
              (1 <= bptree_get_height s -> 2 * ((o + 1) / 2) ^ (bptree_get_height s - 1) * (o / 2) <= length (names (stored ops)))
  end.
Proof.
  intros A B R. destruct (reaches_inv o ops s cs A B R) as (zs & Hb & Hsm & Hm & Eo & _).
  pose proof (names_perm s zs Hb) as P. rewrite Hm in P. destruct Hb as ([To Tt _] & _ & _).
  unfold bptree_get_height. destruct (root s) as [t|].
  - destruct Tt as ([h W] & _). rewrite Eo in *. rewrite (wf_depth _ _ _ _ W). split.
    + apply (wf_balanced o h To true). exact W.
    + intros Hh. destruct h as [|h]; [lia|]. replace (S h - 1) with h by lia. rewrite <- (Permutation_length P).
      pose proof (wf_count_root o h t To W) as X. unfold cut in X. replace (o - 1 + 1) with o in X by lia. exact X.
  - apply Permutation_nil in P. exact P.
Qed.

(* ---------- C15 ---------- *)
Lemma glookup_mem k gs g : glookup k gs = Some g -> In g gs /\ In k (fst g).
Proof. intros E. apply find_some in E as [A B]. split; auto. apply mem_in; auto. Qed.
Lemma gdel_other k k' gs : k' <> k ->
  glookup k' (gdel k gs) = option_map (fun g => (strip k (fst g), snd g)) (glookup k' gs).
Proof.
  intros Hne. unfold gdel. induction gs as [|g gs IH]; cbn [map filter]; auto. rewrite glookup_cons.
  assert (Hm : mem k' (strip k (fst g)) = mem k' (fst g)).
  { destruct (mem k' (fst g)) eqn:E.
    - apply mem_in. apply strip_in. split; auto. apply mem_in; auto.
    - apply mem_false. rewrite strip_in. apply mem_false in E. tauto. }
  destruct (has_name (strip k (fst g), snd g)) eqn:En.
  - rewrite glookup_cons. cbn [fst]. rewrite Hm. destruct (mem k' (fst g)); auto.
  - unfold has_name in En. cbn in En. destruct (strip k (fst g)) eqn:Es; [|discriminate]. cbn in Hm. rewrite <- Hm. exact IH.
Qed.
Lemma gdel_self k gs : glookup k (gdel k gs) = None.
Proof.
  apply find_none. intros g Hg. apply filter_In in Hg as [Hg _]. apply in_map_iff in Hg as (g' & <- & _). apply mem_false. cbn [fst].
  rewrite strip_in. tauto.
Qed.
Lemma grun_app gs a b : grun gs (a ++ b) = (fst (grun (fst (grun gs a)) b), snd (grun gs a) ++ snd (grun (fst (grun gs a)) b)).
Proof.
  revert gs. induction a as [|o a IH]; intros gs; cbn [app grun fst snd]; [destruct (grun gs b); auto|]. rewrite IH. reflexivity.
Qed.
Lemma stored_snoc ops o : stored (ops ++ [o]) = fst (gstep (stored ops) o).
Proof. unfold stored. rewrite grun_app. cbn. reflexivity. Qed.
Lemma safe_app gs a b : safe gs (a ++ b) <-> safe gs a /\ safe (fst (grun gs a)) b.
Proof.
  revert gs. induction a as [|o a IH]; intros gs; cbn [app safe grun fst]; [tauto|]. rewrite IH. tauto.
Qed.


Lemma glookup_unique gs g a : NoDup (names gs) -> In g gs -> In a (fst g) -> glookup a gs = Some g.
Proof.
  unfold names. induction gs as [|h gs IH]; cbn [flat_map]; intros N Hg Ha; [destruct Hg|]. rewrite glookup_cons.
  destruct Hg as [->|Hg]; [rewrite (proj2 (mem_in a (fst g))); auto|].
  assert (Hn : ~ In a (fst h)).
  { intros X. apply in_split in X as (l1 & l2 & E). rewrite E, <- app_assoc in N. cbn in N. apply NoDup_remove_2 in N. apply N.
    rewrite !in_app_iff. right; right. apply in_flat_map. eauto. }
  rewrite (proj2 (mem_false a (fst h)) Hn). apply IH; auto. clear -N. induction (fst h); cbn in *; auto. inversion N; auto.
Qed.
Definition gadd (k a : list ascii) (g : grp) : grp := if mem k (fst g) then (a :: strip a (fst g), snd g) else (strip a (fst g), snd g).
Lemma gname_self k a gs : k <> a -> glookup a (gname k a gs) = option_map (gadd k a) (glookup k gs).
Proof.
  intros Hne. change (gname k a gs) with (filter has_name (map (gadd k a) gs)). induction gs as [|g gs IH]; cbn [map filter]; auto. rewrite (glookup_cons k).
  assert (Eg : gadd k a g = if mem k (fst g) then (a :: strip a (fst g), snd g) else (strip a (fst g), snd g)) by reflexivity. rewrite Eg. clear Eg. destruct (mem k (fst g)) eqn:E.
  - cbn [has_name fst]. rewrite glookup_cons. cbn [fst]. rewrite (proj2 (mem_in a (a :: strip a (fst g)))) by (left; auto). cbn. unfold gadd. rewrite E. reflexivity.
  - destruct (has_name (strip a (fst g), snd g)); [|exact IH]. rewrite glookup_cons. cbn [fst].
    rewrite (proj2 (mem_false a _)) by (rewrite strip_in; tauto). exact IH.
Qed.
Lemma gname_other k a j gs : j <> a -> glookup j (gname k a gs) = option_map (gadd k a) (glookup j gs).
Proof.
  intros Hne. change (gname k a gs) with (filter has_name (map (gadd k a) gs)). induction gs as [|g gs IH]; cbn [map filter]; auto. rewrite (glookup_cons j g).
  assert (Hm : mem j (fst (gadd k a g)) = mem j (fst g)).
  { assert (Hs : mem j (strip a (fst g)) = mem j (fst g)).
    { destruct (mem j (fst g)) eqn:E.
      - apply mem_in. apply strip_in. split; auto. apply mem_in; auto.
      - apply mem_false. rewrite strip_in. apply mem_false in E. tauto. }
    unfold gadd. destruct (mem k (fst g)); cbn [fst]; auto. unfold mem at 1. cbn [existsb]. destruct (keqb_spec j a); [congruence|]. exact Hs. }
  destruct (has_name (gadd k a g)) eqn:En.
  - rewrite glookup_cons, Hm. destruct (mem j (fst g)); auto.
  - unfold has_name in En. destruct (fst (gadd k a g)) eqn:Es; [|discriminate]. cbn in Hm. rewrite <- Hm. exact IH.
Qed.

Lemma reaches_snoc o ops x s cs : reaches o (ops ++ [x]) s cs -> exists s1 cs1 c, reaches o ops s1 cs1 /\ bstep s1 x = Ok (s, c) /\ cs = cs1 ++ [c].
Proof.
  intros (s0 & E0 & E). unfold reaches.
  assert (H : forall ops s0, brun s0 (ops ++ [x]) = Ok (s, cs) -> exists s1 cs1 c, brun s0 ops = Ok (s1, cs1) /\ bstep s1 x = Ok (s, c) /\ cs = cs1 ++ [c]).
  { clear. intros ops. revert cs. induction ops as [|o ops IH]; intros cs s0; cbn [app brun].
    - destruct (bstep s0 x) as [[s1 c]|] eqn:Eb; cbn; [|discriminate]. intros E. injection E as -> <-. exists s0, [], c. cbn [brun app]. auto.
    - destruct (bstep s0 o) as [[s1 c]|] eqn:Eb; cbn [obind fst snd]; [|discriminate].
      destruct (brun s1 (ops ++ [x])) as [[s2 cs2]|] eqn:E2; cbn [obind fst snd]; [|discriminate]. intros E. injection E as -> <-.
      destruct (IH cs2 s1 E2) as (s3 & cs3 & c3 & F1 & F2 & ->). rewrite F1. cbn. exists s3, (c :: cs3), c3. auto. }
  destruct (H ops s0 E) as (s1 & cs1 & c & F1 & F2 & F3). exists s1, cs1, c. eauto.
Qed.

Lemma alias_same_lemma o ops k a f s cs : safe [] ops -> few_aliases (ops ++ [BAlias k a f]) ->
  reaches o (ops ++ [BAlias k a f]) s cs -> last cs 1%Z = 0%Z ->
  bptree_lookup s a = bptree_lookup s k /\ bptree_lookup s k <> Ok None /\
  forall j, j <> a -> data (bptree_lookup s j) = Ok (option_map snd (glookup j (stored ops))).
Proof.
  intros Hs Hf R Hl.
  assert (Hs' : safe [] (ops ++ [BAlias k a f])) by (apply safe_app; split; auto; cbn; auto).
  destruct (reaches_inv o _ s cs Hs' Hf R) as (zs & Hb & Hsm & Hm & _ & Ec).
  assert (Hf1 : few_aliases ops).
  { unfold few_aliases in *. rewrite filter_app, app_length in Hf. lia. }
  destruct (reaches_snoc _ _ _ _ _ R) as (s1 & cs1 & c1 & R1 & _).
  destruct (reaches_inv o ops s1 cs1 Hs Hf1 R1) as (zs1 & Hb1 & _ & Hm1 & _).
  pose proof (Permutation_NoDup (names_perm s1 zs1 Hb1) (SS_NoDup _ (rkeys_sorted s1 (proj1 Hb1)))) as Nd. rewrite Hm1 in Nd.
  assert (Hc : snd (gstep (stored ops) (BAlias k a f)) = 0%Z).
  { rewrite Ec, grun_app in Hl. cbn [snd grun fst] in Hl. fold (stored ops) in Hl. rewrite last_last in Hl. exact Hl. }
  assert (HL : forall j, bptree_lookup s j = Ok (option_map out (glookup j (fst (gstep (stored ops) (BAlias k a f)))))).
  { intros j. rewrite <- stored_snoc, <- Hm. apply lookup_sim; auto. }
  assert (K : forall j, data (bptree_lookup s j) = Ok (option_map snd (glookup j (fst (gstep (stored ops) (BAlias k a f)))))).
  { intros j. rewrite HL. cbn. f_equal. destruct (glookup j _) as [g|]; auto. cbn. f_equal. destruct g as [n [d z]]. reflexivity. }
  cbn [gstep] in Hc, HL, K. destruct (glookup k (stored ops)) as [g|] eqn:Ek; [|discriminate].
  destruct (mem a (fst g)) eqn:Ea.
  - cbn [fst] in *. apply mem_in in Ea. apply glookup_mem in Ek as [Hg Hk]. rewrite !HL, !(glookup_unique _ g) by auto.
    repeat split; auto; discriminate.
  - match type of Hc with context [if ?b then _ else _] => destruct b end; [discriminate|]. cbn [fst] in *.
    assert (Hne : k <> a).
    { intros ->. apply glookup_mem in Ek as [_ Hk]. apply mem_false in Ea. contradiction. }
    rewrite !HL, gname_self, (gname_other k a k), Ek by auto. split; auto. split; [discriminate|].
    intros j Hj. rewrite K, gname_other by auto. f_equal. destruct (glookup j (stored ops)) as [g'|]; auto. cbn. unfold gadd. destruct (mem k (fst g')); auto.
Qed.

Lemma delete_one_lemma o ops k s cs : safe [] (ops ++ [BDel k]) -> few_aliases ops -> reaches o (ops ++ [BDel k]) s cs ->
  bptree_lookup s k = Ok None /\ forall j, j <> k -> data (bptree_lookup s j) = Ok (option_map snd (glookup j (stored ops))).
Proof.
  intros Hs Hf R.
  assert (Hf1 : few_aliases (ops ++ [BDel k])).
  { unfold few_aliases in *. rewrite filter_app, app_length. cbn. lia. }
  destruct (reaches_inv o _ s cs Hs Hf1 R) as (zs & Hb & Hsm & Hm & _ & Ec).
  assert (HL : forall j, bptree_lookup s j = Ok (option_map out (glookup j (gdel k (stored ops))))).
  { intros j. change (gdel k (stored ops)) with (fst (gstep (stored ops) (BDel k))). rewrite <- stored_snoc, <- Hm. apply lookup_sim; auto. }
  split; [rewrite HL, gdel_self; reflexivity|]. intros j Hj. rewrite HL, gdel_other by auto. cbn. f_equal.
  destruct (glookup j (stored ops)) as [[n [d z]]|]; reflexivity.
Qed.

(* ---------- C16 ---------- *)
Lemma nodes_count t : nodes t = count_nodes t.
Proof.
  revert t. fix IH 1. intros [a nx ks rs|ks cs]; cbn [nodes count_nodes]; auto. f_equal.
  induction cs as [|c cs IHc]; cbn [map fold_right]; auto. rewrite list_sum_cons, IH, IHc. reflexivity.
Qed.
Definition tree_nodes (s : bpt) : nat := match root s with None => 0 | Some t => count_nodes t end.
Lemma account_lemma o ops s cs : safe [] ops -> few_aliases ops -> reaches o ops s cs ->
  let gs := stored ops in
  let mt := (40 + 24 * N.of_nat (length gs) + N.of_nat (match root s with None => 0 | Some t => count_nodes t end) *
             (32 + 8 * (N.of_nat o - 1) + 8 * N.of_nat o) + name_bytes (names gs))%N in
  bptree_get_entry_count s = wrap64 (N.of_nat (length gs)) /\
  bptree_get_size s = (wrap64 (mt + data_bytes gs), wrap64 mt, wrap64 (data_bytes gs)).
Proof.
  intros A B R gs mt. destruct (reaches_inv o ops s cs A B R) as (zs & Hb & Hsm & Hm & Eo & _).
  pose proof (name_bytes_perm _ _ (names_perm s zs Hb)) as Hn. rewrite Hm in Hn.
  destruct Hb as (T & (M & D & C) & _).
  assert (EL : length zs = length gs) by (unfold gs; rewrite <- Hm, map_length; auto). rewrite EL, Hm in *. fold gs in D, Hn.
  unfold bptree_get_entry_count, bptree_get_size. rewrite C, D. split; auto.
  assert (EM : meta s = wrap64 mt).
  { unfold minv, meta_base in M. rewrite M, Hn, EL, Eo. unfold mt, node_size. f_equal.
    assert (En : rnodes (root s) = match root s with None => 0 | Some t => count_nodes t end) by (destruct (root s); auto; apply nodes_count).
    rewrite En. pose proof (ti_o s T). replace (N.of_nat (o - 1)) with (N.of_nat o - 1)%N by lia. reflexivity. }
  rewrite EM. f_equal. f_equal. unfold add64, wrap64. rewrite <- N.add_mod by discriminate. reflexivity.
Qed.
