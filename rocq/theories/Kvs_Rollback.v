From Verif Require Import Base Bptree_Model Bptree_Spec Bptree_Sim Bptree_Run Kvs_Model Kvs_Spec Kvs_Proofs Kvs_Trans Kvs_Commit.
Local Open Scope N_scope.

(* What one set leaves for the rollback: one entry, or two if it also wrote an archive key. *)
Inductive ev := E1 (k : bytes) (v : N * N) (has : bool) | E2 (k : bytes) (v : N * N) (x : bytes) (w : N * N).
Definition ents (e : ev) : list rbent :=
  match e with E1 k v has => [ent k v has false] | E2 k v x w => [ent k v true false; ent x w false true] end.
Definition ekeys (e : ev) : list bytes := match e with E1 k _ _ => [k] | E2 k _ x _ => [k; x] end.
Definition ev_ok (l l0 : al) (n0 : N) (e : ev) : Prop :=
  match e with
  | E1 k v has => (exists n sz, alook k l = Some (n, sz) /\ n0 < n) /\ v = oldv k l0 /\ (has = true -> fst v = 0)
  | E2 k v x w => (exists n sz, alook k l = Some (n, sz) /\ n0 < n) /\ v = oldv k l0 /\ fst v <> 0 /\ alook x l = Some v /\ w = oldv x l0
  end.

Record RI (s : skv) (l l0 : al) (h0 : list obj) (evs : list ev) (used : list bytes) : Prop := {
  ri_bk : bk s = map one l;
  ri_rb : rb s = Some (flat_map ents evs);
  ri_ub : exists us, ub s = Some us;
  ri_inv : INV l (heap s) (flat_map ents evs) [] 0;
  ri_inv0 : INV l0 h0 [] [] 0;
  ri_ok : Forall (ev_ok l l0 (N.of_nat (length h0))) evs;
  ri_nd : NoDup (flat_map ekeys evs);
  ri_used : incl (flat_map ekeys evs) used;
  ri_off : forall j, ~ In j (flat_map ekeys evs) -> alook j l = alook j l0;
  ri_keep : forall q, cont h0 q <> None -> cont (heap s) q = cont h0 q;
  ri_len : (length h0 <= length (heap s))%nat }.

Lemma ev_ok_put l l0 n0 k v evs : ~ In k (flat_map ekeys evs) -> Forall (ev_ok l l0 n0) evs -> Forall (ev_ok (aput k v l) l0 n0) evs.
Proof.
  induction evs as [|e evs IH]; intros N F; [constructor|]. inversion F; subst. cbn [flat_map] in N.
  constructor; [|apply IH; [intros X; apply N, in_or_app; auto|assumption]].
  assert (Ne : ~ In k (ekeys e)) by (intros X; apply N, in_or_app; auto).
  destruct e as [k' v' has|k' v' x w]; cbn [ev_ok ekeys In] in *.
  - rewrite alook_put. destruct (keqb_spec k k'); [exfalso; auto|exact H1].
  - rewrite !alook_put. destruct (keqb_spec k k'); [exfalso; auto|]. destruct (keqb_spec k x); [exfalso; auto|exact H1].
Qed.
Lemma ev_ok_del l l0 n0 k evs : ~ In k (flat_map ekeys evs) -> Forall (ev_ok l l0 n0) evs -> Forall (ev_ok (adel k l) l0 n0) evs.
Proof.
  induction evs as [|e evs IH]; intros N F; [constructor|]. inversion F; subst. cbn [flat_map] in N.
  constructor; [|apply IH; [intros X; apply N, in_or_app; auto|assumption]].
  assert (Ne : ~ In k (ekeys e)) by (intros X; apply N, in_or_app; auto).
  destruct e as [k' v' has|k' v' x w]; cbn [ev_ok ekeys In] in *.
  - rewrite alook_del. destruct (keqb_spec k k'); [exfalso; auto|exact H1].
  - rewrite !alook_del. destruct (keqb_spec k k'); [exfalso; auto|]. destruct (keqb_spec k x); [exfalso; auto|exact H1].
Qed.
Lemma oldv_eq k l l' : alook k l = alook k l' -> oldv k l = oldv k l'.
Proof. unfold oldv. intros ->. reflexivity. Qed.
Lemma flat_snoc {A B} (f : A -> list B) l x : flat_map f (l ++ [x]) = flat_map f l ++ f x.
Proof. rewrite flat_map_app. cbn. rewrite app_nil_r. reflexivity. Qed.
Lemma NoDup_snoc {A} (l : list A) x : NoDup l -> ~ In x l -> NoDup (l ++ [x]).
Proof.
  intros H N. apply NoDup_Add with (a := x) (l := l); [|split; assumption]. rewrite <- (app_nil_r l) at 1. apply Add_app.
Qed.

Lemma rollback_step s l l0 h0 evs used o t : RI s l l0 h0 evs used -> data_op o -> rollback_ok used (o :: t) ->
  exists s' l' evs' used' r, kstep spec_backend s o = Ok (s', r) /\ RI s' l' l0 h0 evs' used' /\ rollback_ok used' t /\ code_ok o r.
Proof.
  intros C D K. assert (C' := C). destruct C as [Hb Hr [us Hu] I I0 HO ND HU HF HK HL].
  destruct o as [k c mg a fn|k a fn|k|k a f| |b|]; cbn [data_op kstep rollback_ok] in *; try contradiction.
  - destruct K as (K1 & K2 & K3).
    set (used' := can k :: match a with Some x => [can x] | None => [] end ++ used) in *.
    assert (Inc : incl (flat_map ekeys evs) used').
    { intros x Hx. right. apply in_or_app. right. apply HU. exact Hx. }
    destruct k as [|k0 kt].
    + cbn [sid_kvs_set obind]. exists s, l, evs, used'. eexists. split; [reflexivity|].
      split; [constructor; eauto|]. split; [exact K3|reflexivity].
    + assert (Kn : k0 :: kt <> []) by discriminate. set (k := k0 :: kt) in *. clearbody k.
      assert (Nk : ~ In (can k) (flat_map ekeys evs)) by (intros X; apply K1, HU, X).
      destruct (kset_ok s l (flat_map ents evs) [] k c mg a fn) as (s' & w & l' & R & U & B' & L & P & VV); auto.
      rewrite R. cbn [obind].
      destruct (accepted _ _ _).
      2:{ destruct P as (-> & R' & I' & Kp). exists s', l, evs, used'. eexists. split; [reflexivity|].
          split; [|split; [exact K3|unfold code_ok, fst; destruct k; [congruence|reflexivity]]]. constructor; auto.
          - congruence. - exists us. congruence.
          - intros q Q. rewrite Kp; [apply HK; exact Q|]. rewrite HK; exact Q.
          - lia. }
      destruct P as (nw & sz & Nw & El & R' & I' & Kp). rewrite Hr in R', I'.
      assert (Eo : oldv (can k) l = oldv (can k) l0) by (apply oldv_eq, HF, Nk).
      assert (Z0 : fst (oldv (can k) l) = 0 <-> alook (can k) l = None) by (apply (inv_old0 _ _ _ _ _ _ I eq_refl)).
      assert (Kp' : forall q, cont h0 q <> None -> cont (heap s') q = cont h0 q).
      { intros q Q. rewrite Kp; [apply HK; exact Q|congruence|]. rewrite HK; exact Q. }
      assert (Ok1 : Forall (ev_ok (aput (can k) (nw, sz) l) l0 (N.of_nat (length h0))) evs) by (apply ev_ok_put; assumption).
      assert (One : forall has, (has = true -> fst (oldv (can k) l) = 0) -> l' = aput (can k) (nw, sz) l ->
         rb s' = Some (flat_map ents evs ++ [ent (can k) (oldv (can k) l) has false]) ->
         INV l' (heap s') (flat_map ents evs ++ [ent (can k) (oldv (can k) l) has false]) [] 0 ->
         RI s' l' l0 h0 (evs ++ [E1 (can k) (oldv (can k) l) has]) used').
      { intros has Hh -> Rr Ii. constructor; rewrite ?flat_snoc; cbn [ents ekeys]; auto.
        - exists us. congruence.
        - apply Forall_app. split; [exact Ok1|]. constructor; [|constructor]. cbn [ev_ok]. rewrite alook_put, keqb_refl.
          split; [exists nw, sz; split; [reflexivity|lia]|]. split; [exact Eo|exact Hh].
        - apply NoDup_snoc; assumption.
        - intros x Hx. apply in_app_or in Hx as [Hx|[<-|[]]]; [apply Inc; exact Hx|left; reflexivity].
        - intros j Nj. rewrite alook_put. destruct (keqb_spec (can k) j); [exfalso; apply Nj, in_or_app; right; left; assumption|].
          apply HF. intros X. apply Nj, in_or_app. auto.
        - lia. }
      exists s', l'. destruct a as [ak|]; cbn zeta in *.
      * destruct (N.eqb_spec (fst (oldv (can k) l)) 0) as [E0|N0].
        -- exists (evs ++ [E1 (can k) (oldv (can k) l) true]), used'. eexists. split; [reflexivity|].
           split; [apply One; auto|]. split; [exact K3|unfold code_ok, fst; destruct k; [congruence|reflexivity]].
        -- destruct (K2 _ eq_refl) as [Nu Nx]. assert (Nxe : ~ In (can ak) (flat_map ekeys evs)) by (intros X; apply Nu, HU, X).
           assert (Ex : oldv (can ak) (aput (can k) (nw, sz) l) = oldv (can ak) l0).
           { apply oldv_eq. rewrite alook_put. destruct (keqb_spec (can k) (can ak)); [congruence|]. apply HF, Nxe. }
           exists (evs ++ [E2 (can k) (oldv (can k) l) (can ak) (oldv (can ak) (aput (can k) (nw, sz) l))]), used'. eexists. split; [reflexivity|].
           split; [|split; [exact K3|unfold code_ok, fst; destruct k; [congruence|reflexivity]]].
           constructor; rewrite ?flat_snoc; cbn [ents ekeys]; auto.
           ++ exists us. congruence.
           ++ subst l'. apply Forall_app. split; [apply ev_ok_put; assumption|]. constructor; [|constructor]. cbn [ev_ok].
              rewrite !alook_put, !keqb_refl. destruct (keqb_spec (can ak) (can k)); [congruence|].
              split; [exists nw, sz; split; [reflexivity|lia]|]. split; [exact Eo|]. split; [exact N0|]. split; [|exact Ex].
              reflexivity.
           ++ replace [can k; can ak] with ([can k] ++ [can ak]) by reflexivity. rewrite app_assoc. apply NoDup_snoc; [apply NoDup_snoc; assumption|].
              intros X. apply in_app_or in X as [X|[X|[]]]; [auto|congruence].
           ++ intros x Hx. apply in_app_or in Hx as [Hx|[<-|[<-|[]]]]; [apply Inc; exact Hx|left; reflexivity|right; left; reflexivity].
           ++ intros j Nj. subst l'. assert (j <> can k /\ j <> can ak /\ ~ In j (flat_map ekeys evs)) as (N1 & N2 & N3).
              { repeat split; intros X; apply Nj, in_or_app; subst; cbn; auto. }
              rewrite !alook_put. destruct (keqb_spec (can ak) j); [congruence|]. destruct (keqb_spec (can k) j); [congruence|]. apply HF, N3.
           ++ lia.
      * exists (evs ++ [E1 (can k) (oldv (can k) l) false]), used'. eexists. split; [reflexivity|].
        split; [apply One; auto; discriminate|]. split; [exact K3|unfold code_ok, fst; destruct k; [congruence|reflexivity]].
  - destruct K as (-> & K3). destruct k as [|k0 kt].
    + cbn [sid_kvs_unset obind]. exists s, l, evs, used. eexists. split; [reflexivity|].
      split; [exact C'|]. split; [exact K3|reflexivity].
    + destruct (tunset_ok s l (flat_map ents evs) [] us (k0 :: kt) None fn) as (s' & l' & bw' & R & R' & B' & I' & L & P); auto; try discriminate.
      rewrite R. cbn [obind]. exists s'. destruct (allows fn (V l (heap s) (can (k0 :: kt)))).
      * destruct P as (U' & EB & F & _). destruct (F eq_refl) as [-> Eh]. subst bw'. exists l, evs, used. eexists. split; [reflexivity|].
        split; [|split; [exact K3|reflexivity]]. constructor; auto; [congruence|eauto|rewrite Eh; exact HK|rewrite Eh; exact HL].
      * destruct P as (-> & -> & ->). exists l, evs, used. eexists. split; [reflexivity|]. split; [exact C'|]. split; [exact K3|reflexivity].
  - rewrite (kget_ok s l (flat_map ents evs) [] k Hb I eq_refl). unfold obind. destruct (reads (V l (heap s)) k) as [c z].
    exists s, l, evs, used. eexists. split; [reflexivity|]. split; [exact C'|]. split; [exact K|exact Logic.I].
  - exists s, l, evs, used. eexists. split; [reflexivity|]. split; [exact C'|]. split; [exact K|exact Logic.I].
Qed.

Lemma rollback_run ops : forall s l l0 h0 evs used, RI s l l0 h0 evs used -> Forall data_op ops -> rollback_ok used ops ->
  exists s' l' evs' used' rs, krun spec_backend s ops = Ok (s', rs) /\ RI s' l' l0 h0 evs' used' /\ Forall2 code_ok ops rs.
Proof.
  induction ops as [|o t IH]; intros s l l0 h0 evs used C D K.
  - exists s, l, evs, used, []. split; [reflexivity|]. split; [exact C|constructor].
  - inversion D; subst. destruct (rollback_step _ _ _ _ _ _ _ _ C H1 K) as (s1 & l1 & e1 & u1 & r & E & C1 & K1 & R1).
    destruct (IH _ _ _ _ _ _ C1 H2 K1) as (s2 & l2 & e2 & u2 & rs & X2 & C2 & R2).
    exists s2, l2, e2, u2, (r :: rs). cbn [krun]. rewrite E. cbn [obind]. rewrite X2. cbn [obind].
    split; [reflexivity|]. split; [exact C2|]. constructor; assumption.
Qed.

(* Undoing one entry whose key now holds a live value of its own. *)
Definition arestore (k : bytes) (v : N * N) (l : al) : al := if fst v =? 0 then adel k l else aput k v l.
Lemma alook_restore k l0 v l j : INV l0 v [] [] 0 -> alook j (arestore k (oldv k l0) l) = if keqb k j then alook k l0 else alook j l.
Proof.
  intros I0. unfold arestore. pose proof (inv_old0 _ _ _ _ _ k I0 eq_refl) as Z. unfold oldv in *. destruct (alook k l0) as [x|] eqn:E.
  - destruct (N.eqb_spec (fst x) 0) as [e|]; [apply Z in e; discriminate|]. rewrite alook_put. reflexivity.
  - cbn [fst N.eqb]. rewrite alook_del. reflexivity.
Qed.
Lemma restore_upd k v l : fst (gstep (map one l) (BUpdate k (fun _ => if fst v =? 0 then (BREMOVE, (0, 0)) else (BWRITE, v)))) = map one (arestore k v l).
Proof. unfold gstep, arestore. cbn [fst]. destruct (fst v =? 0); [apply gdel_one|apply gwrite_one]. Qed.
Lemma NoDup_restore k v l : NoDup (map fst l) -> NoDup (map fst (arestore k v l)).
Proof. unfold arestore. destruct (fst v =? 0); [apply NoDup_del|apply NoDup_put]. Qed.
Lemma cl_restore k v l p n sz : NoDup (map fst l) -> alook k l = Some (n, sz) ->
  (cl [] (arestore k v l) p + b2n (n =? p)%N = cl [] l p + b2n (negb (fst v =? 0)%N && (fst v =? p)%N))%nat.
Proof.
  intros ND E. unfold arestore. destruct (N.eqb_spec (fst v) 0).
  - pose proof (cl_del [] k l p ND) as D. unfold here in D. rewrite E in D. cbn in *. lia.
  - pose proof (cl_put [] k v l p ND) as D. unfold here in D. rewrite E in D. cbn in *. lia.
Qed.

Definition rollb := rollback_value spec_backend.
Lemma ofold_app {A} (f : skv -> A -> outcome skv) a b s :
  ofold spec_backend f s (a ++ b) = let! s := ofold spec_backend f s a in ofold spec_backend f s b.
Proof. revert s. induction a as [|x a IH]; intros s; [reflexivity|]. cbn [app ofold]. destruct (f s x); cbn [obind]; auto. Qed.
Lemma with_heap_bk (s : skv) h b : with_bk spec_backend (with_heap spec_backend s h) b = (Build_kv spec_backend (b) h (rb s) (ub s)).
Proof. reflexivity. Qed.

Lemma rollback_ev (s : skv) l l0 h0 e evs us :
  bk s = map one l -> ub s = us -> INV l (heap s) (ents e ++ flat_map ents evs) [] 0 -> INV l0 h0 [] [] 0 ->
  Forall (ev_ok l l0 (N.of_nat (length h0))) (e :: evs) -> NoDup (flat_map ekeys (e :: evs)) ->
  (forall j, ~ In j (flat_map ekeys (e :: evs)) -> alook j l = alook j l0) ->
  (forall q, cont h0 q <> None -> cont (heap s) q = cont h0 q) ->
  exists s' l', ofold spec_backend rollb s (ents e) = Ok s' /\ bk s' = map one l' /\ ub s' = us /\ INV l' (heap s') (flat_map ents evs) [] 0 /\
    Forall (ev_ok l' l0 (N.of_nat (length h0))) evs /\ (forall j, ~ In j (flat_map ekeys evs) -> alook j l' = alook j l0) /\
    (forall q, cont h0 q <> None -> cont (heap s') q = cont h0 q).
Proof.
  intros Hb Hu I I0 HO ND HF HK. inversion HO as [|? ? He HO']; subst.
  assert (First : forall k v n sz, alook k l = Some (n, sz) -> N.of_nat (length h0) < n -> v = oldv k l0 -> forall has,
     exists h', rollb s (ent k v has false) = Ok (Build_kv spec_backend (map one (arestore k v l)) h' (rb s) (ub s)) /\
       (forall q, cont h' q = if q =? n then None else cont (heap s) q)).
  { intros k v n sz El Ln Ev has. unfold rollb, rollback_value. cbn [blook bupd spec_backend rkey rval rvsize ris ent]. rewrite Hb. cbn [obind].
    rewrite found_one. replace (fst (oldv k l)) with n by (unfold oldv; rewrite El; reflexivity).
    destruct (N.eqb_spec n 0); [lia|]. rewrite andb_false_r. cbn [orb].
    assert (Nv : n <> fst v).
    { intros En. subst v. unfold oldv in En. destruct (alook k l0) as [x|] eqn:Ex; [|cbn in En; lia].
      assert (A := inv_alive _ _ _ _ _ _ _ I0 Ex eq_refl). destruct (cont h0 (fst x)) eqn:Ec; [|congruence]. apply cont_lt in Ec. lia. }
    destruct (N.eqb_spec n (fst v)); [congruence|]. rewrite andb_false_r.
    assert (A := inv_alive _ _ _ _ _ _ _ I El eq_refl). cbn [fst] in A. destruct (cont (heap s) n) as [cn|] eqn:Ec; [|congruence].
    destruct (hfree_ok _ _ _ Ec) as (h' & F & C & _). rewrite F. cbn [obind].
    exists h'. split; [|exact C]. rewrite with_heap_bk. f_equal. f_equal.
    rewrite <- (restore_upd k v l). destruct v as [v1 v2]. cbn [fst snd]. try rewrite Hb; reflexivity. }
  destruct e as [k v has|k v x w]; cbn [ev_ok ents ekeys flat_map app] in *.
  - destruct He as ((n & sz & El & Ln) & Ev & Hz). destruct (First k v n sz El Ln Ev has) as (h' & R & C).
    inversion ND as [|? ? Nk ND']; subst.
    eexists _, _. cbn [ofold]. rewrite R. cbn [obind]. split; [reflexivity|]. cbn [bk ub heap]. split; [reflexivity|]. split; [reflexivity|]. split; [|split; [|split]].
    + split; [apply NoDup_restore, I|]. intros p. pose proof (proj2 I p) as H. pose proof (cl_restore k (oldv k l0) l p n sz (proj1 I) El) as D.
      cbn [cr ent rhas rval] in H. rewrite hand0 in *. rewrite C, (N.eqb_sym p n).
      assert (A := inv_alive _ _ _ _ _ _ _ I El eq_refl). cbn [fst] in A.
      assert (Vz : b2n (negb (fst (oldv k l0) =? 0) && (fst (oldv k l0) =? p)) = b2n (negb has && negb (p =? 0) && (fst (oldv k l0) =? p))).
      { destruct has; cbn [negb andb].
        - rewrite (Hz eq_refl). reflexivity.
        - destruct (N.eqb_spec (fst (oldv k l0)) 0), (N.eqb_spec p 0), (N.eqb_spec (fst (oldv k l0)) p); cbn; try reflexivity; congruence. }
      rewrite Vz in D. destruct (N.eqb_spec n p) as [Ep|].
      * rewrite Ep in A. destruct (cont (heap s) p); [|congruence]. cbn [isS b2n] in *. lia.
      * cbn [b2n] in D. lia.
    + unfold arestore. destruct (fst (oldv k l0) =? 0); [apply ev_ok_del|apply ev_ok_put]; assumption.
    + intros j Nj. rewrite (alook_restore k l0 h0 l j I0). destruct (keqb_spec k j) as [<-|]; [reflexivity|]. apply HF. intros [|]; auto.
    + intros q Q. rewrite C. destruct (N.eqb_spec q n) as [->|]; [|auto]. destruct (cont h0 n) eqn:Ec; [|congruence]. apply cont_lt in Ec. lia.
  - destruct He as ((n & sz & El & Ln) & Ev & Vn & Ex & Ew). destruct (First k v n sz El Ln Ev true) as (h' & R & C).
    inversion ND as [|? ? Nk ND1]; subst. inversion ND1 as [|? ? Nx ND2]; subst.
    assert (Nkx : k <> x) by (intros ->; apply Nk; left; reflexivity).
    assert (Ex1 : alook x (arestore k (oldv k l0) l) = Some (oldv k l0)).
    { rewrite (alook_restore k l0 h0 l x I0). destruct (keqb_spec k x); [congruence|exact Ex]. }
    assert (Ek : alook k l0 = Some (oldv k l0)).
    { unfold oldv in *. destruct (alook k l0); [reflexivity|]. cbn in Vn. congruence. }
    assert (Wv : fst (oldv k l0) <> fst (oldv x l0)).
    { unfold oldv at 2. destruct (alook x l0) as [y|] eqn:Ey; [|exact Vn]. apply (inv_diff _ _ _ _ _ k x _ _ I0 Ek Ey eq_refl eq_refl Nkx). }
    set (s1 := (Build_kv spec_backend (map one (arestore k (oldv k l0) l)) h' (rb s) (ub s)) : skv) in *.
    assert (R2 : rollb s1 (ent x (oldv x l0) false true) =
       Ok (Build_kv spec_backend (map one (arestore x (oldv x l0) (arestore k (oldv k l0) l))) h' (rb s) (ub s))).
    { unfold rollb, rollback_value, s1. cbn [blook bupd spec_backend rkey rval rvsize ris ent bk]. cbn [obind].
      rewrite found_one. replace (fst (oldv x (arestore k (oldv k l0) l))) with (fst (oldv k l0)) by (unfold oldv at 2; rewrite Ex1; reflexivity).
      destruct (N.eqb_spec (fst (oldv k l0)) 0); [congruence|]. rewrite andb_false_r. cbn [orb].
      destruct (N.eqb_spec (fst (oldv k l0)) (fst (oldv x l0))); [congruence|]. rewrite andb_false_r. cbn [obind].
      rewrite with_heap_bk. f_equal. f_equal. rewrite <- (restore_upd x (oldv x l0) (arestore k (oldv k l0) l)). destruct (oldv x l0) as [v1 v2]. reflexivity. }
    eexists _, _. cbn [ofold]. rewrite R. cbn [obind]. rewrite R2. cbn [obind]. split; [reflexivity|]. cbn [bk ub heap].
    split; [reflexivity|]. split; [reflexivity|]. split; [|split; [|split]].
    + split; [apply NoDup_restore, NoDup_restore, I|]. intros p. pose proof (proj2 I p) as H.
      pose proof (cl_restore k (oldv k l0) l p n sz (proj1 I) El) as D.
      assert (Ex1' : alook x (arestore k (oldv k l0) l) = Some (fst (oldv k l0), snd (oldv k l0))) by (rewrite Ex1; destruct (oldv k l0); reflexivity).
      pose proof (cl_restore x (oldv x l0) _ p _ _ (NoDup_restore k (oldv k l0) l (proj1 I)) Ex1') as D2.
      cbn [cr ent rhas rval negb andb] in H. cbn [b2n] in H. rewrite hand0 in *. rewrite C, (N.eqb_sym p n).
      assert (A := inv_alive _ _ _ _ _ _ _ I El eq_refl). cbn [fst] in A.
      assert (Vz : forall y : N, b2n (negb (y =? 0) && (y =? p)) = b2n (negb (p =? 0) && (y =? p))).
      { intros y. destruct (N.eqb_spec y 0), (N.eqb_spec p 0), (N.eqb_spec y p); cbn; try reflexivity; congruence. }
      rewrite Vz in D2. destruct (N.eqb_spec (fst (oldv k l0)) 0); [congruence|]. cbn [negb andb] in D. destruct (N.eqb_spec n p) as [Ep|].
      * rewrite Ep in A. destruct (cont (heap s) p); [|congruence]. cbn [isS b2n] in *. lia.
      * cbn [b2n] in D. lia.
    + assert (Q : forall (y : N * N) k' ll, ~ In k' (flat_map ekeys evs) -> Forall (ev_ok ll l0 (N.of_nat (length h0))) evs ->
        Forall (ev_ok (arestore k' y ll) l0 (N.of_nat (length h0))) evs).
      { intros y k' ll N0 F. unfold arestore. destruct (fst y =? 0); [apply ev_ok_del|apply ev_ok_put]; assumption. }
      apply Q; [exact Nx|]. apply Q; [|exact HO']. intros X. apply Nk. right. exact X.
    + intros j Nj. rewrite (alook_restore x l0 h0 _ j I0). destruct (keqb_spec x j) as [<-|]; [reflexivity|].
      rewrite (alook_restore k l0 h0 l j I0). destruct (keqb_spec k j) as [<-|]; [reflexivity|]. apply HF. intros [|[|]]; auto.
    + intros q Q. rewrite C. destruct (N.eqb_spec q n) as [->|]; [|auto]. destruct (cont h0 n) eqn:Ec; [|congruence]. apply cont_lt in Ec. lia.
Qed.

Lemma rollback_all evs : forall (s : skv) l l0 h0,
  bk s = map one l -> INV l (heap s) (flat_map ents evs) [] 0 -> INV l0 h0 [] [] 0 ->
  Forall (ev_ok l l0 (N.of_nat (length h0))) evs -> NoDup (flat_map ekeys evs) ->
  (forall j, ~ In j (flat_map ekeys evs) -> alook j l = alook j l0) ->
  (forall q, cont h0 q <> None -> cont (heap s) q = cont h0 q) ->
  exists s' l', ofold spec_backend rollb s (flat_map ents evs) = Ok s' /\ bk s' = map one l' /\ ub s' = ub s /\ INV l' (heap s') [] [] 0 /\
    (forall j, alook j l' = alook j l0) /\ (forall q, cont h0 q <> None -> cont (heap s') q = cont h0 q).
Proof.
  induction evs as [|e evs IH]; intros s l l0 h0 Hb I I0 HO ND HF HK.
  - exists s, l. split; [reflexivity|]. repeat split; auto; apply I.
  - destruct (rollback_ev s l l0 h0 e evs (ub s) Hb eq_refl I I0 HO ND HF HK) as (s1 & l1 & R1 & B1 & U1 & I1 & O1 & F1 & K1).
    assert (ND1 : NoDup (flat_map ekeys evs)).
    { cbn [flat_map] in ND. clear - ND. induction (ekeys e) as [|x t IH]; [exact ND|]. cbn in ND. inversion ND; auto. }
    destruct (IH s1 l1 l0 h0 B1 I1 I0 O1 ND1 F1 K1) as (s2 & l2 & R2 & B2 & U2 & I2 & A2 & K2).
    exists s2, l2. cbn [flat_map]. rewrite ofold_app, R1. cbn [obind]. split; [exact R2|]. split; [exact B2|]. split; [congruence|].
    split; [exact I2|]. split; [exact A2|exact K2].
Qed.

Lemma rollback_seg s l m ops : St s l m -> Forall data_op ops -> rollback_ok [] ops ->
  exists s' l' rs, krun spec_backend s (calls (Trans ops true)) = Ok (s', rs) /\ St s' l' m /\ Forall2 code_ok (calls (Trans ops true)) rs.
Proof.
  intros (Hb & Hr & Hu & I & HV) D K. cbn [calls krun kstep]. unfold trans_begin, trans_active. rewrite Hr. cbn [obind].
  assert (C : RI (with_ub spec_backend (with_rb spec_backend s (Some [])) (Some [])) l l (heap s) [] []).
  { constructor; cbn; auto; try apply I. - eauto. - constructor. - intros j []. }
  destruct (rollback_run ops _ _ _ _ _ _ C D K) as (s1 & l1 & evs & used & rs & R1 & [B1 Rb [us U1] I1 I0 O1 N1 _ F1 K1 _] & C1).
  rewrite krun_app, R1. cbn [obind krun kstep]. unfold trans_end. rewrite Rb. cbn [obind].
  destruct (rollback_all evs (with_ub spec_backend s1 None) l1 l (heap s) B1 I1 I0 O1 N1 F1 K1) as (s2 & l2 & R2 & B2 & U2 & I2 & A2 & K2).
  unfold rollb in R2. rewrite R2. cbn [obind]. eexists _, l2, _. split; [reflexivity|]. split.
  - split; [exact B2|]. split; [reflexivity|]. split; [exact U2|]. split; [exact I2|]. cbn [with_rb heap]. intros j. rewrite <- HV. unfold V.
    rewrite A2. destruct (alook j l) as [v|] eqn:E; [|reflexivity]. apply K2. apply (inv_alive _ _ _ _ _ _ _ I E eq_refl).
  - constructor; [exact Logic.I|]. apply Forall2_app; [exact C1|]. repeat constructor.
Qed.

Lemma history_ok segs : forall s l m, St s l m -> Forall seg_ok segs ->
  exists s' l' rs, krun spec_backend s (history segs) = Ok (s', rs) /\ St s' l' (fold_left seg_step segs m) /\ Forall2 code_ok (history segs) rs.
Proof.
  induction segs as [|sg segs IH]; intros s l m S F.
  - exists s, l, []. split; [reflexivity|]. split; [exact S|constructor].
  - inversion F; subst. cbn [history flat_map fold_left]. fold (history segs).
    assert (P : exists s' l' rs, krun spec_backend s (calls sg) = Ok (s', rs) /\ St s' l' (seg_step m sg) /\ Forall2 code_ok (calls sg) rs).
    { destruct sg as [o|ops [|]]; cbn [seg_ok seg_step] in *.
      - destruct (plain_ok s l m o S H1) as (s' & l' & r & E & S' & R). exists s', l', [r]. cbn [calls krun]. rewrite E. cbn [obind].
        split; [reflexivity|]. split; [exact S'|]. repeat constructor. exact R.
      - destruct H1. apply rollback_seg with (l := l); assumption.
      - destruct H1. apply commit_seg with (l := l); assumption. }
    destruct P as (s1 & l1 & r1 & E1 & S1 & R1). destruct (IH s1 l1 _ S1 H2) as (s2 & l2 & r2 & E2 & S2 & R2).
    exists s2, l2, (r1 ++ r2). rewrite krun_app, E1. cbn [obind]. rewrite E2. cbn [obind]. split; [reflexivity|]. split; [exact S2|].
    apply Forall2_app; assumption.
Qed.

Lemma destroy_ok l : forall h, INV l h [] [] 0 ->
  exists h', fold_left (fun h (g : grp) => let! h := h in hfree h (fst (snd g))) (map one l) (Ok h) = Ok h' /\ still_allocated h' = [].
Proof.
  induction l as [|[k v] l IH]; intros h I.
  - exists h. split; [reflexivity|]. destruct I as [_ H]. unfold still_allocated. destruct (filter snd h) as [|o t] eqn:E; [reflexivity|].
    exfalso. assert (X : In o (filter snd h)) by (rewrite E; left; reflexivity). apply filter_In in X as [X Y].
    apply In_nth_error in X as [n X]. specialize (H (N.of_nat n + 1)). cbn [cl cr] in H. rewrite hand0 in H.
    unfold cont, hobj in H. destruct (N.eqb_spec (N.of_nat n + 1) 0); [lia|]. replace (N.to_nat (N.of_nat n + 1) - 1)%nat with n in H by lia.
    rewrite X in H. destruct o as [c b]. cbn in Y. subst b. cbn in H. lia.
  - cbn [map fold_left one snd fst obind].
    assert (I' : INV l h [] [] (fst v)).
    { destruct I as [ND H]. cbn [map] in ND. inversion ND; subst. split; [assumption|]. intros p. specialize (H p). cbn [cl fst snd mem existsb negb andb] in H.
      rewrite hand0 in H. cbn [cr] in *. destruct (N.eqb_spec p 0) as [->|]; cbn [negb andb b2n]; [|lia]. rewrite cont_0 in *. cbn in *. lia. }
    destruct (inv_free _ _ _ _ _ I') as (h' & F & I2 & _). rewrite F. apply IH. exact I2.
Qed.

Lemma empty_St : St kempty [] (fun _ => None).
Proof. repeat split; auto; [constructor|]. intros p. cbn. rewrite hand0. unfold cont, hobj. cbn. destruct (p =? 0); [reflexivity|]. destruct (N.to_nat p - 1)%nat; reflexivity. Qed.

Lemma kvs_lemma segs : Forall seg_ok segs ->
  exists s rs h, krun spec_backend kempty (history segs) = Ok (s, rs) /\ Forall2 code_ok (history segs) rs /\
    (forall k, sid_kvs_get spec_backend s k = Ok (reads (seg_run segs) k)) /\
    kvs_destroy s = Ok h /\ still_allocated h = [].
Proof.
  intros F. destruct (history_ok segs _ _ _ empty_St F) as (s & l & rs & E & (Hb & _ & _ & I & HV) & R).
  destruct (destroy_ok l (heap s) I) as (h & D & A). exists s, rs, h. split; [exact E|]. split; [exact R|]. split; [|split; [unfold kvs_destroy; rewrite Hb; exact D|exact A]].
  intros k. rewrite (kget_ok s l [] [] k Hb I eq_refl). f_equal. unfold reads, seg_run. destruct k; [reflexivity|]. rewrite HV. reflexivity.
Qed.

Lemma plain_history ops : Forall data_op ops -> Forall seg_ok (map Plain ops) /\ history (map Plain ops) = ops /\ seg_run (map Plain ops) = plain_run (fun _ => None) ops.
Proof.
  intros F. split; [|split].
  - induction F; constructor; auto.
  - clear F. induction ops; [reflexivity|]. cbn. f_equal. exact IHops.
  - clear F. unfold seg_run, plain_run. generalize (fun _ : bytes => @None content). induction ops as [|o t IH]; intros m; [reflexivity|]. cbn. apply IH.
Qed.
