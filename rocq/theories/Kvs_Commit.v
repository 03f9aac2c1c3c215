From Verif Require Import Base Bptree_Model Bptree_Spec Bptree_Sim Bptree_Run Kvs_Model Kvs_Spec Kvs_Proofs Kvs_Trans.
Local Open Scope N_scope.

Lemma mem_In k l : mem k l = true <-> In k l.
Proof.
  unfold mem. rewrite existsb_exists. split.
  - intros (x & Hx & E). destruct (keqb_spec k x); [subst; exact Hx|discriminate].
  - intros H. exists k. rewrite keqb_refl. auto.
Qed.
Lemma mem_not k l : mem k l = false <-> ~ In k l.
Proof. rewrite <- mem_In. destruct (mem k l); split; congruence. Qed.
Lemma hand0 p : b2n (negb (p =? 0) && (0 =? p)) = 0%nat.
Proof. destruct (N.eqb_spec p 0), (N.eqb_spec 0 p); try reflexivity; lia. Qed.

(* Unsetting inside a transaction. *)
Lemma tunset_ok (s : skv) l rbs bw us k a fn :
  k <> [] -> bk s = map one l -> INV l (heap s) rbs bw 0 -> mem (can k) bw = false ->
  (forall x, a = Some x -> mem (can x) bw = false /\ can x <> can k) -> ub s = Some us -> code01 fn ->
  exists s' l' bw', sunset s k a fn = Ok (s', 0%Z) /\ rb s' = rb s /\ bk s' = map one l' /\ INV l' (heap s') rbs bw' 0 /\
    (length (heap s) <= length (heap s'))%nat /\
    if allows fn (V l (heap s) (can k))
    then ub s' = Some (us ++ [{| ukey := can k; uhas := match a with Some _ => true | None => false end |}]) /\
         bw' = (match a with Some _ => can k :: bw | None => bw end) /\
         (a = None -> l' = l /\ heap s' = heap s) /\
         (forall j, mem j bw' = false -> j <> can k -> V l' (heap s') j = plain_step (V l (heap s)) (KUnset k a fn) j)
    else s' = s /\ l' = l /\ bw' = bw.
Proof.
  intros Kn Hb I Mk Ma Hu Hc. rewrite plain_unset_eq by exact Kn. destruct k as [|k0 kt]; [congruence|]. set (k := k0 :: kt) in *.
  unfold sid_kvs_unset. unfold k at 1. rewrite Hu. change (k0 :: kt) with k. clearbody k.
  unfold unset_value. cbn [blook bupd spec_backend]. rewrite Hb. cbn [obind]. rewrite found_one.
  rewrite (unset_code _ _ _ _ _ _ Hb I Mk Hc). cbn [obind]. destruct (allows fn (V l (heap s) (can k))).
  2:{ cbn [Z.eqb obind gstep fst]. exists s, l, bw.
      assert (E : with_bk spec_backend s (map one l) = s) by (destruct s; cbn in *; subst; reflexivity). rewrite E.
      split; [destruct a; reflexivity|]. repeat split; auto; apply I. }
  cbn [Z.eqb Pos.eqb obind]. rewrite Hu. cbn [obind Z.eqb gstep fst with_ub bk].
  set (s1 := with_bk spec_backend _ _).
  assert (VK : forall j, j <> can k -> mset (V l (heap s)) (can k) None j = V l (heap s) j).
  { intros j N. unfold mset. destruct (same_spec (can k) j); congruence. }
  destruct a as [ak|]; cbn [archive].
  2:{ exists s1, l, bw. split; [reflexivity|]. split; [reflexivity|]. split; [exact Hb|]. split; [exact I|]. split; [apply le_n|].
      split; [reflexivity|]. split; [reflexivity|]. split; [auto|]. intros j Mj N. symmetry. exact (VK j N). }
  destruct (Ma _ eq_refl) as [Mx Nx].
  assert (IB : INV l (heap s) rbs (can k :: bw) (fst (oldv (can k) l))).
  { split; [apply I|]. intros p. pose proof (cl_borrow bw (can k) l p (proj1 I) Mk) as D. rewrite (here_old _ _ _ _ _ _ p I Mk) in D.
    pose proof (proj2 I p) as H. rewrite hand0 in H. lia. }
  assert (Mx' : mem (can ak) (can k :: bw) = false).
  { apply mem_not. intros [e|e]; [congruence|]. apply mem_not in Mx. auto. }
  destruct (oldv (can k) l) as [ov osz] eqn:EO. cbn [fst snd] in *.
  pose proof (inv_old0 _ _ _ _ _ (can k) I Mk) as Z0. rewrite EO in Z0. cbn [fst] in Z0.
  destruct (N.eqb_spec ov 0) as [E0|N0].
  - exists s1, l, (can k :: bw). split; [reflexivity|]. split; [reflexivity|]. split; [exact Hb|]. split; [rewrite E0 in IB; exact IB|].
    split; [apply le_n|]. split; [reflexivity|]. split; [reflexivity|]. split; [discriminate|]. intros j Mj N.
    assert (VN : V l (heap s) (can k) = None) by (unfold V; rewrite (proj1 Z0 E0); reflexivity). rewrite VN. symmetry. exact (VK j N).
  - assert (Sv : alook (can k) l = Some (ov, osz)).
    { unfold oldv in EO. destruct (alook (can k) l) as [v|] eqn:E; [congruence|]. injection EO as <- <-. congruence. }
    assert (Al : cont (heap s) ov <> None) by (apply (inv_alive _ _ _ _ _ _ _ I Sv Mk)).
    destruct (cont (heap s) ov) as [oc|] eqn:Eoc; [|congruence].
    assert (VS : V l (heap s) (can k) = Some oc) by (unfold V; rewrite Sv; exact Eoc). rewrite VS.
    destruct (set_value_ok (with_rb spec_backend s1 None) l rbs (can k :: bw) (can ak) ov osz None false true oc Hb IB Eoc Mx' (or_introl eq_refl))
      as (s2 & nw2 & x2 & R2 & U2 & L2 & P2). cbn [accepted heap rb ub with_rb s1 with_bk] in *.
    destruct P2 as (sz2 & B2 & R2' & X2 & I2 & C2 & K2 & _ & F2). destruct (F2 eq_refl) as [-> ->].
    rewrite R2. cbn [obind]. subst x2. cbn [fst] in I2.
    eexists _, _, _. split; [reflexivity|]. cbn [with_rb rb ub bk heap]. split; [reflexivity|]. split; [exact B2|]. split; [exact I2|].
    split; [exact L2|]. split; [exact U2|]. split; [reflexivity|]. split; [discriminate|]. intros j Mj N.
    erewrite keep_view with (h := heap s) (nw := ov); [|exact IB|exact Mx'|exact C2|intros q T1 T2 T3; apply K2; auto|exact Mj].
    apply mset_ext. symmetry. exact (VK j N).
Qed.

(* Inside a transaction that will be committed. *)
Record CI (s : skv) (l : al) (rbs : list rbent) (us : list ubent) (bw : list bytes) (gone : list bytes) (m : cmap) : Prop := {
  ci_bk : bk s = map one l;
  ci_rb : rb s = Some rbs;
  ci_ub : ub s = Some us;
  ci_inv : INV l (heap s) rbs bw 0;
  ci_bw : forall k, In k bw <-> exists u, In u us /\ ukey u = k /\ uhas u = true;
  ci_nd : NoDup (map ukey us);
  ci_gone : incl (map ukey us) gone;
  ci_view : forall j, ~ In j (map ukey us) -> V l (heap s) j = m j;
  ci_none : forall j, In j (map ukey us) -> m j = None }.

Lemma ci_bw_gone s l rbs us bw gone m k : CI s l rbs us bw gone m -> ~ In k gone -> mem k bw = false.
Proof.
  intros C H. apply mem_not. intros G. apply (ci_bw _ _ _ _ _ _ _ C) in G as (u & Hu & <- & _). apply H, (ci_gone _ _ _ _ _ _ _ C).
  apply in_map. exact Hu.
Qed.
Lemma ci_bw_us s l rbs us bw gone m k : CI s l rbs us bw gone m -> ~ In k (map ukey us) -> mem k bw = false.
Proof.
  intros C H. apply mem_not. intros G. apply (ci_bw _ _ _ _ _ _ _ C) in G as (u & Hu & <- & _). apply H. apply in_map. exact Hu.
Qed.

Lemma commit_step s l rbs us bw gone m o t : CI s l rbs us bw gone m -> data_op o -> commit_ok gone (o :: t) ->
  exists s' l' rbs' us' bw' gone' r, kstep spec_backend s o = Ok (s', r) /\ CI s' l' rbs' us' bw' gone' (plain_step m o) /\
    commit_ok gone' t /\ code_ok o r.
Proof.
  intros C D K. assert (C' := C). destruct C as [Hb Hr Hu I HB ND HG HV HN].
  destruct o as [k c mg a fn|k a fn|k|k a f| |b|]; cbn [data_op kstep commit_ok] in *; try contradiction.
  - destruct K as (K1 & K2 & K3). destruct k as [|k0 kt].
    + cbn [sid_kvs_set obind]. exists s, l, rbs, us, bw, gone. eexists. split; [reflexivity|]. split; [exact C'|]. split; [exact K3|reflexivity].
    + set (k := k0 :: kt) in *.
      destruct (kset_ok s l rbs bw k c mg a fn) as (s' & w & l' & R & U & B' & L & P & VV); auto; try discriminate.
      { eapply ci_bw_gone; eauto. } { intros x Ex. eapply ci_bw_gone; eauto. }
      rewrite R. cbn [obind]. assert (Q : exists rbs', rb s' = Some rbs' /\ INV l' (heap s') rbs' bw 0).
      { destruct (accepted _ _ _).
        - destruct P as (nw & sz & _ & _ & R' & I' & _). rewrite Hr in R', I'. eauto.
        - destruct P as (-> & R' & I' & _). rewrite Hr in R'. eauto. }
      destruct Q as (rbs' & R' & I'). exists s', l', rbs', us, bw, gone. eexists. split; [reflexivity|].
      split; [|split; [exact K3|reflexivity]]. constructor; auto; [congruence| |].
      * intros j Nj. rewrite VV by (eapply ci_bw_us; eauto). apply plain_ext; [|auto].
        intros x Hx. apply HV. intros Hx'. apply HG in Hx'. cbn [okeys] in Hx. destruct Hx as [<-|Hx]; [auto|].
        destruct a as [y|]; [|destruct Hx]. destruct Hx as [<-|[]]. apply (K2 y eq_refl Hx').
      * intros j Hj. rewrite plain_off; [auto|]. intros Hx. apply HG in Hj. cbn [okeys] in Hx. destruct Hx as [<-|Hx]; [auto|].
        destruct a as [y|]; [|destruct Hx]. destruct Hx as [<-|[]]. apply (K2 y eq_refl Hj).
  - destruct K as (K1 & K2 & K3). destruct k as [|k0 kt].
    + cbn [sid_kvs_unset obind]. exists s, l, rbs, us, bw, (can [] :: gone). eexists. split; [reflexivity|].
      split; [constructor; auto; intros x Hx; right; apply HG; exact Hx|]. split; [exact K3|reflexivity].
    + set (k := k0 :: kt) in *. assert (Nk : ~ In (can k) (map ukey us)) by (intros Hx; apply K1, HG, Hx).
      destruct (tunset_ok s l rbs bw us k a fn) as (s' & l' & bw' & R & R' & B' & I' & L & P); auto; try discriminate.
      { eapply ci_bw_gone; eauto. } { intros x Ex. destruct (K2 x Ex). split; [eapply ci_bw_gone; eauto|assumption]. }
      rewrite R. cbn [obind]. destruct (allows fn (V l (heap s) (can k))) eqn:Al.
      * destruct P as (U' & EB & _ & VV).
        exists s', l', rbs, (us ++ [{| ukey := can k; uhas := match a with Some _ => true | None => false end |}]), bw', (can k :: gone). eexists.
        split; [reflexivity|]. split; [|split; [exact K3|reflexivity]]. constructor; auto.
        -- congruence.
        -- intros x. subst bw'. destruct a as [y|].
           ++ split.
              ** intros [<-|Hx]; [eexists; split; [apply in_or_app; right; left; reflexivity|auto]|].
                 apply HB in Hx as (u & Hu' & E1 & E2). exists u. split; [apply in_or_app; auto|auto].
              ** intros (u & Hu' & E1 & E2). apply in_app_or in Hu' as [Hu'|[<-|[]]]; [right; apply HB; eauto|left; exact E1].
           ++ split.
              ** intros Hx. apply HB in Hx as (u & Hu' & E1 & E2). exists u. split; [apply in_or_app; auto|auto].
              ** intros (u & Hu' & E1 & E2). apply in_app_or in Hu' as [Hu'|[<-|[]]]; [apply HB; eauto|discriminate].
        -- rewrite map_app. cbn [map ukey]. apply NoDup_Add with (a := can k) (l := map ukey us); [|split; assumption].
           rewrite <- (app_nil_r (map ukey us)) at 1. apply Add_app.
        -- intros x Hx. rewrite map_app in Hx. apply in_app_or in Hx as [Hx|[<-|[]]]; [right; apply HG; exact Hx|left; reflexivity].
        -- intros j Nj. rewrite map_app in Nj.
           assert (Nj1 : ~ In j (map ukey us)) by (intros X; apply Nj, in_or_app; auto).
           assert (Nj2 : j <> can k) by (intros ->; apply Nj, in_or_app; right; left; reflexivity).
           rewrite VV; [| |exact Nj2].
           ++ apply plain_ext; [|auto]. intros x Hx. cbn [okeys] in Hx. destruct Hx as [<-|Hx]; [auto|].
              destruct a as [y|]; [|destruct Hx]. destruct Hx as [<-|[]]. apply HV. intros X. apply (proj1 (K2 y eq_refl)), HG, X.
           ++ subst bw'. destruct a; [|eapply ci_bw_us; eauto]. apply mem_not. intros [e|e]; [congruence|].
              assert (Z := ci_bw_us _ _ _ _ _ _ _ _ C' Nj1). apply mem_not in Z. auto.
        -- intros j Hj. rewrite map_app in Hj. apply in_app_or in Hj as [Hj|[<-|[]]].
           ++ rewrite plain_off; [auto|]. intros Hx. apply HG in Hj. cbn [okeys] in Hx. destruct Hx as [<-|Hx]; [auto|].
              destruct a as [y|]; [|destruct Hx]. destruct Hx as [<-|[]]. apply (proj1 (K2 y eq_refl) Hj).
           ++ rewrite plain_unset_eq by discriminate. rewrite <- (HV _ Nk), Al. cbn [ukey]. unfold archive, mset.
              destruct a as [y|]; [destruct (V l (heap s) (can k))|]; rewrite ?same_refl; auto.
              destruct (same_spec (can y) (can k)) as [e|]; [exfalso; apply (proj2 (K2 y eq_refl)); exact e|auto].
      * destruct P as (-> & -> & ->). exists s, l, rbs, us, bw, (can k :: gone). eexists. split; [reflexivity|].
        split; [|split; [exact K3|reflexivity]]. constructor; auto.
        -- intros x Hx. right. apply HG. exact Hx.
        -- intros j Nj. rewrite plain_unset_eq by discriminate. rewrite <- (HV _ Nk), Al. auto.
        -- intros j Hj. rewrite plain_unset_eq by discriminate. rewrite <- (HV _ Nk), Al. auto.
  - destruct K as (K1 & K2). rewrite (kget_ok s l rbs bw k Hb I) by (eapply ci_bw_gone; eauto). unfold obind.
    destruct (reads (V l (heap s)) k) as [c z]. exists s, l, rbs, us, bw, gone. eexists. split; [reflexivity|].
    split; [exact C'|]. split; [exact K2|exact Logic.I].
  - exists s, l, rbs, us, bw, gone. eexists. split; [reflexivity|]. split; [exact C'|]. split; [exact K|exact Logic.I].
Qed.

Lemma krun_app BE s a b : krun BE s (a ++ b) =
  let! (s, ra) := krun BE s a in let! (s, rb) := krun BE s b in Ok (s, ra ++ rb).
Proof.
  revert s. induction a as [|o a IH]; intros s; cbn [krun app obind].
  - destruct (krun BE s b) as [[s' r]|]; reflexivity.
  - destruct (kstep BE s o) as [[s1 r]|]; [|reflexivity]. cbn [obind]. rewrite IH. destruct (krun BE s1 a) as [[s2 ra]|]; [|reflexivity].
    cbn [obind]. destruct (krun BE s2 b) as [[s3 rb]|]; reflexivity.
Qed.

Lemma commit_run ops : forall s l rbs us bw gone m, CI s l rbs us bw gone m -> Forall data_op ops -> commit_ok gone ops ->
  exists s' l' rbs' us' bw' gone' rs, krun spec_backend s ops = Ok (s', rs) /\ CI s' l' rbs' us' bw' gone' (plain_run m ops) /\
    Forall2 code_ok ops rs.
Proof.
  induction ops as [|o t IH]; intros s l rbs us bw gone m C D K.
  - exists s, l, rbs, us, bw, gone, []. repeat split; auto; apply C.
  - inversion D; subst. destruct (commit_step _ _ _ _ _ _ _ _ _ C H1 K) as (s1 & l1 & rbs1 & us1 & bw1 & g1 & r & E & C1 & K1 & R1).
    destruct (IH _ _ _ _ _ _ _ C1 H2 K1) as (s2 & l2 & rbs2 & us2 & bw2 & g2 & rs & E2 & C2 & R2).
    exists s2, l2, rbs2, us2, bw2, g2, (r :: rs). cbn [krun]. rewrite E. cbn [obind]. rewrite E2. cbn [obind].
    split; [reflexivity|]. split; [exact C2|]. constructor; assumption.
Qed.

(* The commit itself: first the unsets ... *)
Lemma trans_unset_ok (s : skv) l rbs bw u : bk s = map one l -> INV l (heap s) rbs bw 0 -> mem (ukey u) bw = uhas u ->
  exists s', trans_unset spec_backend s u = Ok s' /\ bk s' = map one (adel (ukey u) l) /\ rb s' = rb s /\ INV (adel (ukey u) l) (heap s') rbs bw 0 /\
    forall j, mem j bw = false -> j <> ukey u -> V (adel (ukey u) l) (heap s') j = V l (heap s) j.
Proof.
  intros Hb I Mu. unfold trans_unset. destruct u as [k has]. cbn [ukey uhas] in *. destruct has.
  - unfold unset_value. cbn [blook bupd spec_backend]. rewrite Hb. cbn [obind]. rewrite found_one. cbn [Z.eqb Pos.eqb]. rewrite andb_false_r.
    cbn [obind Z.eqb gstep fst]. eexists. split; [reflexivity|]. cbn [with_bk bk heap rb]. split; [rewrite Hb; apply gdel_one|]. split; [reflexivity|]. split.
    + split; [apply NoDup_del, I|]. intros p. pose proof (cl_del bw k l p (proj1 I)) as D. pose proof (proj2 I p) as H.
      assert (Z : here bw k l p = 0%nat) by (unfold here; rewrite Mu; destruct (alook k l); reflexivity). lia.
    + intros j Mj N. rewrite V_del. unfold mset. destruct (same_spec k j); [congruence|reflexivity].
  - destruct (unset_value_ok s l rbs bw k None false Hb I Mu Logic.I) as (s' & x & R & R1 & U1 & P). cbn [allows] in P.
    destruct P as (B1 & -> & I1 & K1). rewrite R. cbn [obind]. exists s'. split; [reflexivity|]. split; [exact B1|]. split; [exact R1|]. split; [exact I1|].
    intros j Mj N. unfold V. rewrite alook_del. destruct (keqb_spec k j); [congruence|].
    destruct (alook j l) as [v|] eqn:E; [|reflexivity]. apply K1. intros _. unfold oldv. destruct (alook k l) as [w|] eqn:Ew.
    + apply (inv_diff _ _ _ _ _ j k v w I E Ew Mj Mu). congruence.
    + cbn. intros z. apply (inv_alive _ _ _ _ _ _ _ I E Mj). rewrite z. reflexivity.
Qed.

Lemma unsets_ok us : forall (s : skv) l rbs bw, bk s = map one l -> INV l (heap s) rbs bw 0 -> NoDup (map ukey us) ->
  (forall u, In u us -> mem (ukey u) bw = uhas u) ->
  exists s' l', ofold spec_backend (trans_unset spec_backend) s us = Ok s' /\ bk s' = map one l' /\ rb s' = rb s /\ INV l' (heap s') rbs bw 0 /\
    (forall j, In j (map ukey us) -> alook j l' = None) /\ (forall j, ~ In j (map ukey us) -> alook j l' = alook j l) /\
    (forall j, mem j bw = false -> ~ In j (map ukey us) -> V l' (heap s') j = V l (heap s) j).
Proof.
  induction us as [|u us IH]; intros s l rbs bw Hb I ND HU.
  - exists s, l. repeat split; auto; try apply I. intros j [].
  - cbn [map] in ND. inversion ND; subst. destruct (trans_unset_ok s l rbs bw u Hb I (HU u (or_introl eq_refl))) as (s1 & E1 & B1 & R1 & I1 & V1).
    destruct (IH s1 _ rbs bw B1 I1 H2 (fun x Hx => HU x (or_intror Hx))) as (s2 & l2 & E2 & B2 & R2 & I2 & A2 & A2' & V2).
    exists s2, l2. cbn [ofold]. rewrite E1. cbn [obind]. split; [exact E2|]. split; [exact B2|]. split; [congruence|]. split; [exact I2|]. split; [|split].
    + intros j [<-|Hj]; [|auto]. rewrite A2' by assumption. rewrite alook_del, keqb_refl. reflexivity.
    + intros j Nj. cbn [map In] in Nj. rewrite A2' by tauto. rewrite alook_del. destruct (keqb_spec (ukey u) j); [exfalso; auto|reflexivity].
    + intros j Mj Nj. cbn [map In] in Nj. rewrite V2, V1; auto.
Qed.

(* ... then the rollback values. *)
Definition drop (s : skv) (e : rbent) : outcome skv :=
  if rhas e then Ok s else let! h := hfree (heap s) (rval e) in Ok (with_heap spec_backend s h).
Lemma drops_ok rbs : forall (s : skv) l, bk s = map one l -> INV l (heap s) rbs [] 0 ->
  exists s', ofold spec_backend drop s rbs = Ok s' /\ bk s' = map one l /\ rb s' = rb s /\ ub s' = ub s /\ INV l (heap s') [] [] 0 /\
    forall j, V l (heap s') j = V l (heap s) j.
Proof.
  induction rbs as [|e rbs IH]; intros s l Hb I.
  - exists s. repeat split; auto; apply I.
  - cbn [ofold]. unfold drop at 1. destruct (rhas e) eqn:He.
    + cbn [obind]. apply IH; [exact Hb|]. split; [apply I|]. intros p. pose proof (proj2 I p) as H. cbn [cr] in H. rewrite He in H. cbn [negb andb b2n] in H. lia.
    + assert (I' : INV l (heap s) rbs [] (rval e)).
      { split; [apply I|]. intros p. pose proof (proj2 I p) as H. cbn [cr] in H. rewrite He in H. cbn [negb andb] in H. rewrite hand0 in H. lia. }
      destruct (inv_free _ _ _ _ _ I') as (h' & F & I2 & K & _). rewrite F. cbn [obind].
      destruct (IH (with_heap spec_backend s h') l Hb I2) as (s' & E & B' & R' & U' & I3 & V3). exists s'.
      split; [exact E|]. split; [exact B'|]. split; [exact R'|]. split; [exact U'|]. split; [exact I3|]. intros j. rewrite V3. cbn [with_heap heap].
      unfold V. destruct (alook j l) as [v|] eqn:Ej; [|reflexivity]. apply K. apply (inv_hand _ _ _ _ _ _ _ I' Ej eq_refl).
Qed.

Lemma cl_none bw l p : (forall k, In k (map fst l) -> mem k bw = false) -> cl bw l p = cl [] l p.
Proof.
  induction l as [|[k v] l IH]; intros H; [reflexivity|]. cbn [cl fst snd]. rewrite (H k (or_introl eq_refl)).
  rewrite IH by (intros x Hx; apply H; right; exact Hx). reflexivity.
Qed.

Lemma commit_end s l rbs us bw gone m : CI s l rbs us bw gone m ->
  exists s' l', trans_end spec_backend s false = Ok s' /\ St s' l' m.
Proof.
  intros [Hb Hr Hu I HB ND HG HV HN]. unfold trans_end. rewrite Hr, Hu.
  destruct (unsets_ok us s l rbs bw Hb I ND) as (s1 & l1 & E1 & B1 & R1 & I1 & A1 & A1' & V1).
  { intros u Hu'. destruct (uhas u) eqn:E.
    - apply mem_In, HB. eauto.
    - apply mem_not. intros X. apply HB in X as (u' & Hu2 & E2 & E3).
      assert (u = u'); [|congruence]. revert Hu' Hu2 E2 ND. clear. induction us as [|x us IH]; [intros []|].
      cbn [map]. intros H1 H2 E ND. inversion ND; subst. destruct H1 as [<-|H1], H2 as [<-|H2]; auto.
      + exfalso. apply H3. rewrite <- E. apply in_map. exact H2.
      + exfalso. apply H3. rewrite E. apply in_map. exact H1. }
  rewrite E1. cbn [obind].
  assert (I1' : INV l1 (heap s1) rbs [] 0).
  { split; [apply I1|]. intros p. rewrite <- (cl_none bw l1 p); [apply (proj2 I1 p)|].
    intros k Hk. apply mem_not. intros X. apply HB in X as (u & Hu' & <- & _).
    apply (proj1 (alook_none (ukey u) l1)); [apply A1, in_map; exact Hu'|exact Hk]. }
  destruct (drops_ok rbs (with_ub spec_backend s1 None) l1 B1 I1') as (s2 & E2 & B2 & R2 & U2 & I2 & V2).
  unfold drop in E2. rewrite E2. cbn [obind]. eexists _, l1. split; [reflexivity|].
  split; [exact B2|]. split; [reflexivity|]. split; [exact U2|]. split; [exact I2|]. cbn [with_rb heap]. intros j. rewrite V2. cbn [with_ub heap].
  destruct (in_dec (list_eq_dec ascii_dec) j (map ukey us)) as [Hj|Nj].
  - rewrite HN by exact Hj. unfold V. rewrite A1 by exact Hj. reflexivity.
  - rewrite V1; [auto| |exact Nj]. apply mem_not. intros X. apply HB in X as (u & Hu' & <- & _). apply Nj, in_map, Hu'.
Qed.

Lemma commit_seg s l m ops : St s l m -> Forall data_op ops -> commit_ok [] ops ->
  exists s' l' rs, krun spec_backend s (calls (Trans ops false)) = Ok (s', rs) /\ St s' l' (plain_run m ops) /\
    Forall2 code_ok (calls (Trans ops false)) rs.
Proof.
  intros (Hb & Hr & Hu & I & HV) D K. cbn [calls krun kstep]. unfold trans_begin, trans_active. rewrite Hr. cbn [obind].
  assert (C : CI (with_ub spec_backend (with_rb spec_backend s (Some [])) (Some [])) l [] [] [] [] m).
  { constructor; auto; cbn; auto.
    - intros k. split; [intros []|]. intros (u & [] & _).
    - constructor.
    - intros j []. - intros j []. }
  destruct (commit_run ops _ _ _ _ _ _ _ C D K) as (s1 & l1 & rbs1 & us1 & bw1 & g1 & rs & E1 & C1 & R1).
  rewrite krun_app, E1. cbn [obind krun kstep]. destruct (commit_end _ _ _ _ _ _ _ C1) as (s2 & l2 & E2 & S2).
  rewrite E2. cbn [obind]. exists s2, l2. eexists. split; [reflexivity|]. split; [exact S2|].
  constructor; [exact Logic.I|]. apply Forall2_app; [exact R1|]. repeat constructor.
Qed.
