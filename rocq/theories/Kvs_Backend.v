(* The store behaves alike above the hash table, the B+ tree and the specification, without aliases. *)
From Verif Require Import Base Hash_Model Hash_Spec Hash_Proofs Bptree_Model Bptree_Spec Bptree_Sim Bptree_Run Kvs_Model Kvs_Spec Kvs_Proofs.
Local Open Scope N_scope.

Definition orel {A B} (P : A -> B -> Prop) (x : outcome A) (y : outcome B) : Prop :=
  match x, y with Ok a, Ok b => P a b | UB, UB => True | _, _ => False end.
Lemma orel_bind {A B C D} (P : A -> B -> Prop) (Q : C -> D -> Prop) x y f g :
  orel P x y -> (forall a b, P a b -> orel Q (f a) (g b)) -> orel Q (obind x f) (obind y g).
Proof. destruct x, y; cbn; try contradiction; auto. Qed.
Lemma orel_eq {A} (x : outcome A) : orel eq x x. Proof. destruct x; cbn; auto. Qed.

Section Sim.
  Variable BE : backend.
  Variable R : bst BE -> list grp -> Prop.
  Hypothesis look_ok : forall b gs k, R b gs -> blook BE b k = Ok (option_map out (glookup k gs)).
  Hypothesis upd_ok : forall b gs k a, R b gs -> (fst a = BWRITE -> fst (snd a) <> 0) ->
    exists b', bupd BE b k a = Ok b' /\ R b' (fst (gstep gs (BUpdate k (fun _ => a)))).

  Definition KR (s : kv BE) (t : skv) : Prop := R (bk s) (bk t) /\ heap s = heap t /\ rb s = rb t /\ ub s = ub t.

  Lemma look_rel s t k : KR s t -> orel eq (blook BE (bk s) k) (blook spec_backend (bk t) k).
  Proof. intros (H & _). rewrite (look_ok _ _ k H). reflexivity. Qed.
  Lemma upd_rel s t k a : KR s t -> (fst a = BWRITE -> fst (snd a) <> 0) ->
    orel R (bupd BE (bk s) k a) (bupd spec_backend (bk t) k a).
  Proof. intros (H & _) N. destruct (upd_ok _ _ k a H N) as (b' & E & H'). rewrite E. exact H'. Qed.

  Lemma run_setcb_nz h fn old nw nsz r h' nw' nsz' : nw <> 0 -> run_setcb h fn old nw nsz = Ok (r, h', nw', nsz') -> nw' <> 0.
  Proof.
    intros N. unfold run_setcb. destruct fn as [fn|]; [|intros E; injection E as <- <- <- <-; exact N].
    destruct (content_of h old); cbn [obind]; [|discriminate]. destruct (hread h nw); cbn [obind]; [|discriminate].
    destruct (fn a a0) as [[r0 c'] op]. destruct (_ && _) eqn:E1; [|intros E; injection E as <- <- <- <-; exact N].
    destruct (_ && _ && _) eqn:E2; [intros E; injection E as <- <- <- <-; exact N|].
    unfold halloc. destruct (hfree _ nw); cbn [obind]; [|discriminate]. intros E. injection E as <- <- <- <-. lia.
  Qed.

  Lemma set_value_rel s t k nw nsz fn has is : KR s t -> nw <> 0 ->
    orel (fun x y => KR (fst (fst x)) (fst (fst y)) /\ snd (fst x) = snd (fst y) /\ snd x = snd y)
      (set_value BE s k nw nsz fn has is) (sset_value t k nw nsz fn has is).
  Proof.
    intros H N. unfold set_value. eapply orel_bind; [apply look_rel; exact H|]. intros a b <-. destruct (found a) as [[old osz] refs].
    assert (Eh : heap s = heap t) by apply H. rewrite Eh.
    destruct (run_setcb (heap t) fn old nw nsz) as [[[[r h] nw'] nsz']|] eqn:Er; [|exact Logic.I]. cbn [obind].
    assert (N' := run_setcb_nz _ _ _ _ _ _ _ _ _ N Er). destruct (r =? 0)%Z.
    - eapply orel_bind; [apply orel_eq|]. intros h1 h2 <-. eapply orel_bind; [apply upd_rel; [exact H|discriminate]|]. intros b1 b2 Hb.
      cbn. destruct H as (_ & _ & Hr & Hu). repeat split; assumption.
    - assert (M : orel KR
         (match rb (with_heap BE s h) with
          | Some l => Ok (with_rb BE (with_heap BE s h) (Some (l ++ [{| rkey := k; rval := old; rvsize := osz; rhas := has; ris := is |}])))
          | None => if has then Ok (with_heap BE s h) else let! h := hfree h old in Ok (with_heap BE (with_heap BE s h) h) end)
         (match rb (with_heap spec_backend t h) with
          | Some l => Ok (with_rb spec_backend (with_heap spec_backend t h) (Some (l ++ [{| rkey := k; rval := old; rvsize := osz; rhas := has; ris := is |}])))
          | None => if has then Ok (with_heap spec_backend t h) else let! h := hfree h old in Ok (with_heap spec_backend (with_heap spec_backend t h) h) end)).
      { destruct H as (Hb & _ & Hr & Hu). cbn [rb with_heap]. destruct (rb t) eqn:Ert; rewrite Hr.
        - cbn. repeat split; auto.
        - destruct has; [cbn; repeat split; cbn; congruence || assumption|]. destruct (hfree h old); cbn; [repeat split; cbn; congruence || assumption|exact Logic.I]. }
      eapply orel_bind; [exact M|]. intros s1 t1 H1. eapply orel_bind; [apply upd_rel; [exact H1|intros _; exact N']|]. intros b1 b2 Hb.
      cbn. destruct H1 as (_ & Hh & Hr & Hu). repeat split; assumption.
  Qed.

  Lemma unset_value_rel s t k fn has ubuf : KR s t ->
    orel (fun x y => KR (fst x) (fst y) /\ snd x = snd y) (unset_value BE s k fn has ubuf) (sunset_value t k fn has ubuf).
  Proof.
    intros H. unfold unset_value. eapply orel_bind; [apply look_rel; exact H|]. intros a b <-. destruct (found a) as [[old osz] refs].
    assert (Eh : heap s = heap t) by apply H. assert (Eu : ub s = ub t) by apply H. rewrite Eh, Eu. eapply orel_bind; [apply orel_eq|]. intros r r' <-.
    assert (NW : forall z : Z, fst (if (z =? 0)%Z then BSKIP else BREMOVE, (0, 0)) = BWRITE -> fst (snd (if (z =? 0)%Z then BSKIP else BREMOVE, (0, 0))) <> 0)
      by (intros z; destruct (z =? 0)%Z; discriminate).
    destruct (r =? 1)%Z.
    - eapply orel_bind with (P := fun x y => KR (fst x) (fst y) /\ snd x = snd y).
      + destruct ubuf.
        * cbn. destruct H as (Hb & Hh & Hr & _). repeat split; auto.
        * destruct ((refs =? 1) && negb has); [|cbn; split; [exact H|reflexivity]].
          destruct (hfree (heap t) old); cbn; [|exact Logic.I]. destruct H as (Hb & Hh & Hr & Hu). repeat split; auto.
      + intros [s1 r1] [t1 r2] [H1 E]. cbn [fst snd] in *. subst r2. eapply orel_bind; [apply upd_rel; [exact H1|apply NW]|]. intros b1 b2 Hb.
        cbn. destruct H1 as (_ & Hh & Hr & Hu). repeat split; assumption.
    - eapply orel_bind; [apply upd_rel; [exact H|apply NW]|]. intros b1 b2 Hb. cbn. destruct H as (_ & Hh & Hr & Hu). repeat split; assumption.
  Qed.

  Lemma ofold_rel {A} (f : kv BE -> A -> outcome (kv BE)) (g : skv -> A -> outcome skv) l :
    (forall s t x, KR s t -> orel KR (f s x) (g t x)) -> forall s t, KR s t -> orel KR (ofold BE f s l) (ofold spec_backend g t l).
  Proof.
    intros H. induction l as [|x l IH]; intros s t K; [exact K|]. cbn [ofold]. eapply orel_bind; [apply H; exact K|]. exact IH.
  Qed.

  Lemma rollback_rel s t e : KR s t -> orel KR (rollback_value BE s e) (rollback_value spec_backend t e).
  Proof.
    intros H. unfold rollback_value. eapply orel_bind; [apply look_rel; exact H|]. intros a b <-. destruct (found a) as [[cur cz] refs].
    assert (Eh : heap s = heap t) by apply H. rewrite Eh. destruct (_ || _); [exact H|]. destruct (cur =? 0).
    - destruct (hfree (heap t) (rval e)); cbn; [|exact Logic.I]. destruct H as (Hb & Hh & Hr & Hu). repeat split; auto.
    - eapply orel_bind; [apply orel_eq|]. intros h h' <-. eapply orel_bind; [apply upd_rel; [exact H|]|].
      + destruct (N.eqb_spec (rval e) 0); [discriminate|]. intros _. assumption.
      + intros b1 b2 Hb. cbn. destruct H as (_ & Hh & Hr & Hu). repeat split; auto.
  Qed.

  Definition no_alias_op (o : kop) : Prop := match o with KAlias _ _ _ => False | _ => True end.
  Lemma kstep_rel s t o : KR s t -> no_alias_op o ->
    orel (fun x y => KR (fst x) (fst y) /\ snd x = snd y) (kstep BE s o) (kstep spec_backend t o).
  Proof.
    intros H A. destruct o as [k c mg a fn|k a fn|k|k a f| |b|]; cbn [kstep]; try contradiction.
    - unfold sid_kvs_set. destruct k as [|k0 kt]; [cbn; auto|].
      assert (Eh : heap s = heap t) by apply H. rewrite Eh. unfold halloc.
      eapply orel_bind with (P := fun x y => KR (fst (fst x)) (fst (fst y)) /\ snd (fst x) = snd (fst y)); [|intros [[s1 r1] w1] [[t1 r2] w2] [H1 E]; cbn in *; subst; auto].
      eapply orel_bind; [apply set_value_rel; [|lia]|].
      + destruct H as (Hb & Hh & Hr & Hu). repeat split; auto.
      + intros [[s1 n1] x1] [[t1 n2] x2] (H1 & E1 & E2). cbn [fst snd] in *. subst. destruct x2 as [av asz].
        destruct a as [ak|]; [|cbn; auto]. destruct (N.eqb_spec av 0); [cbn; auto|].
        eapply orel_bind; [apply set_value_rel; assumption|]. intros [[s2 n3] x3] [[t2 n4] x4] (H2 & E3 & E4). cbn in *. auto.
    - unfold sid_kvs_unset. destruct k as [|k0 kt]; [cbn; auto|]. assert (Eu : ub s = ub t) by apply H. rewrite Eu.
      eapply orel_bind with (P := fun x y => KR (fst x) (fst y) /\ snd x = snd y); [|intros [s1 r1] [t1 r2] [H1 E]; cbn in *; subst; auto].
      eapply orel_bind; [apply unset_value_rel; exact H|]. intros [s1 x1] [t1 x2] (H1 & E1). cbn [fst snd] in *. subst. destruct x2 as [av asz].
      destruct a as [ak|]; [|cbn; auto]. destruct (N.eqb_spec av 0); [cbn; auto|].
      eapply orel_bind; [apply set_value_rel; [|assumption]|].
      + destruct H1 as (Hb & Hh & Hr & Hu). repeat split; auto.
      + intros [[s2 n3] x3] [[t2 n4] x4] (H2 & E3 & E4). cbn in *. destruct H1 as (_ & _ & Hr & _), H2 as (Hb & Hh & _ & Hu). repeat split; auto.
    - unfold sid_kvs_get. destruct k as [|k0 kt]; [cbn; auto|]. rewrite (look_ok _ _ _ (proj1 H)). cbn [blook spec_backend obind].
      destruct (found _) as [[p x] y]. destruct (p =? 0); [cbn; auto|]. assert (Eh : heap s = heap t) by apply H. rewrite Eh.
      destruct (hread (heap t) p); cbn; auto.
    - unfold trans_begin, trans_active. assert (Er : rb s = rb t) by apply H. rewrite Er. destruct (rb t); cbn; [auto|].
      destruct H as (Hb & Hh & Hr & Hu). repeat split; auto.
    - eapply orel_bind with (P := KR); [|intros s1 t1 H1; cbn; auto].
      unfold trans_end. assert (Er : rb s = rb t) by apply H. assert (Eu : ub s = ub t) by apply H. rewrite Er, Eu. destruct (rb t) as [rbs|]; [|exact H].
      eapply orel_bind with (P := KR).
      + destruct b; [exact H|]. apply ofold_rel; [|exact H]. intros s1 t1 u H1. unfold trans_unset.
        eapply orel_bind; [apply unset_value_rel; exact H1|]. intros [s2 x1] [t2 x2] (H2 & _). exact H2.
      + intros s1 t1 H1. eapply orel_bind with (P := KR).
        * assert (H1' : KR (with_ub BE s1 None) (with_ub spec_backend t1 None)) by (destruct H1 as (Hb & Hh & Hr & Hu); repeat split; auto).
          destruct b; apply ofold_rel; try exact H1'; [intros; apply rollback_rel; assumption|].
          intros s2 t2 e H2. destruct (rhas e); [exact H2|]. assert (Eh : heap s2 = heap t2) by apply H2. rewrite Eh.
          destruct (hfree (heap t2) (rval e)); cbn; [|exact Logic.I]. destruct H2 as (Hb & Hh & Hr & Hu). repeat split; auto.
        * intros s2 t2 (Hb & Hh & Hr & Hu). cbn. repeat split; auto.
    - unfold trans_active. assert (Er : rb s = rb t) by apply H. rewrite Er. cbn. auto.
  Qed.

  Lemma krun_rel ops : Forall no_alias_op ops -> forall s t, KR s t ->
    orel (fun x y => KR (fst x) (fst y) /\ snd x = snd y) (krun BE s ops) (krun spec_backend t ops).
  Proof.
    induction 1 as [|o ops Ho _ IH]; intros s t H; [cbn; auto|]. cbn [krun]. eapply orel_bind; [apply kstep_rel; assumption|].
    intros [s1 r1] [t1 r2] [H1 E]. cbn [fst snd] in *. subst. eapply orel_bind; [apply IH; exact H1|].
    intros [s2 rs1] [t2 rs2] [H2 E]. cbn in *. subst. auto.
  Qed.
End Sim.

(* The hash table *)
Definition RH (t : htable) (gs : list grp) : Prop :=
  inv t /\ exists l, gs = map one l /\ NoDup (map fst l) /\ (forall k v, alook k l = Some v -> fst v <> 0) /\
    forall k, abs t (k ++ [NUL]) = match alook k l with Some v => [v] | None => [] end.

Lemma hash_look_abs t k : hash_lookup t k = match abs t k with [] => (0, 0) | e :: _ => e end.
Proof.
  unfold hash_lookup. pose proof (hfind_abs t k) as H. destruct (hfind t k) as [n|]; destruct (abs t k); cbn in H; try congruence.
  injection H as <-. reflexivity.
Qed.
Lemma RH_look t gs k : RH t gs -> blook hash_backend t k = Ok (option_map out (glookup k gs)).
Proof.
  intros (I & l & -> & _ & Hn & Ha). cbn [blook hash_backend]. rewrite hash_look_abs, Ha, glookup_one. destruct (alook k l) as [v|] eqn:E; [|reflexivity].
  destruct (N.eqb_spec (fst v) 0); [exfalso; eapply Hn; eauto|]. destruct v; reflexivity.
Qed.
Lemma RH_upd t gs k a : RH t gs -> (fst a = BWRITE -> fst (snd a) <> 0) ->
  exists t', bupd hash_backend t k a = Ok t' /\ RH t' (fst (gstep gs (BUpdate k (fun _ => a)))).
Proof.
  intros (I & l & -> & ND & Hn & Ha) N. cbn [bupd hash_backend]. eexists. split; [reflexivity|].
  destruct (hstep_ok (fun _ _ _ => true) t (HUpdate (k ++ [NUL]) (fun _ => (hact_of (fst a), snd a))) I) as [I' A']. cbn [hstep mm_step] in *.
  split; [exact I'|]. destruct a as [a v]. cbn [fst snd gstep] in *. destruct a; cbn [hact_of] in *.
  - exists l. split; [reflexivity|]. split; [exact ND|]. split; [exact Hn|]. intros j. rewrite A'. apply Ha.
  - exists (aput k v l). split; [apply gwrite_one|]. split; [apply NoDup_put; exact ND|]. split.
    + intros j w. rewrite alook_put. destruct (keqb_spec k j); [intros E; injection E as <-; auto|apply Hn].
    + intros j. rewrite A'. unfold mm_set. rewrite alook_put. destruct (bytes_eqb_spec (k ++ [NUL]) (j ++ [NUL])) as [e|n], (keqb_spec k j) as [e'|n'].
      * rewrite Ha. destruct (alook k l); reflexivity.
      * apply app_inj_tail in e as [e _]. congruence.
      * congruence.
      * apply Ha.
  - exists (adel k l). split; [apply gdel_one|]. split; [apply NoDup_del; exact ND|]. split.
    + intros j w. rewrite alook_del. destruct (keqb_spec k j); [discriminate|apply Hn].
    + intros j. rewrite A'. unfold mm_set. rewrite alook_del. destruct (bytes_eqb_spec (k ++ [NUL]) (j ++ [NUL])) as [e|n], (keqb_spec k j) as [e'|n'].
      * rewrite Ha. destruct (alook k l); reflexivity.
      * apply app_inj_tail in e as [e _]. congruence.
      * congruence.
      * apply Ha.
Qed.

(* The B+ tree *)
Definition RB (b : bpt) (gs : list grp) : Prop := exists zs l, binv b zs /\ map snd zs = gs /\ gs = map one l.
Lemma one_gle l : gle 1 (map one l).
Proof. intros g Hg. apply in_map_iff in Hg as (e & <- & _). cbn. lia. Qed.
Lemma RB_look b gs k : RB b gs -> blook bptree_backend b k = Ok (option_map out (glookup k gs)).
Proof.
  intros (zs & l & HB & E & El). cbn [blook bptree_backend]. rewrite <- E. apply lookup_sim; [exact HB|]. apply (gle_small 1); [rewrite E, El; apply one_gle|lia].
Qed.
Lemma one_single l : single (map one l) (fun k => alook k l).
Proof.
  split; [intros g Hg; apply in_map_iff in Hg as (e & <- & _); exists (fst e); reflexivity|].
  intros k. rewrite glookup_one. destruct (alook k l); reflexivity.
Qed.
Lemma RB_upd b gs k a : RB b gs -> (fst a = BWRITE -> fst (snd a) <> 0) ->
  exists b', bupd bptree_backend b k a = Ok b' /\ RB b' (fst (gstep gs (BUpdate k (fun _ => a)))).
Proof.
  intros (zs & l & HB & E & El) _. destruct (single_step (map one l) _ (BUpdate k (fun _ => a)) (one_single l) eq_refl) as [_ S].
  destruct (step_sim b zs (BUpdate k (fun _ => a)) HB) as (b' & zs' & E1 & B1 & M1 & _).
  - apply (gle_small 1); [rewrite E, El; apply one_gle|lia].
  - rewrite E, El. exact S.
  - cbn [bstep] in E1. cbn [bupd bptree_backend]. destruct (bptree_update b k (fun _ => a)) as [b1|]; cbn [obind] in E1; [|discriminate].
    injection E1 as ->. exists b'. split; [reflexivity|]. exists zs'. rewrite E in M1.
    destruct a as [[| |] v]; cbn [gstep fst snd] in *.
    + exists l. auto.
    + exists (aput k v l). rewrite El in *. rewrite gwrite_one in *. auto.
    + exists (adel k l). rewrite El in *. rewrite gdel_one in *. auto.
Qed.

Definition hkempty (t : htable) : kv hash_backend := Build_kv hash_backend t [] None None.
Definition bkempty (b : bpt) : kv bptree_backend := Build_kv bptree_backend b [] None None.

Lemma hash_start hint : hint <= 2 ^ 31 -> exists t, hash_create hint = Some t /\ KR hash_backend RH (hkempty t) kempty.
Proof.
  intros H. destruct (Hash_Proofs.create_ok hint H) as (t & E & I & A). exists t. split; [exact E|]. split; [|auto].
  split; [exact I|]. exists []. split; [reflexivity|]. split; [constructor|]. split; [discriminate|]. intros k. apply A.
Qed.
Lemma bptree_start o : (4 <= o)%nat -> exists b, bptree_create o = Some b /\ KR bptree_backend RB (bkempty b) kempty.
Proof.
  intros H. exists (empty o). split; [apply Bptree_Run.create_ok; exact H|]. split; [|auto]. exists [], []. split; [apply empty_binv; exact H|auto].
Qed.
