From Verif Require Import Base Bptree_Model Bptree_Spec Bptree_Sim Bptree_Run Kvs_Model Kvs_Spec Kvs_Proofs.
Local Open Scope N_scope.

Notation can := canonicalize_key.

Lemma same_spec a b : reflect (a = b) (same a b).
Proof. unfold same. destruct (list_eq_dec ascii_dec a b); constructor; assumption. Qed.
Lemma same_refl a : same a a = true. Proof. destruct (same_spec a a); congruence. Qed.

Lemma keep_view l h h' rbs bw nw k nw' sz' c' :
  INV l h rbs bw nw -> mem k bw = false -> cont h' nw' = Some c' ->
  (forall q, q <> nw -> cont h q <> None -> q <> fst (oldv k l) -> cont h' q = cont h q) ->
  forall j, mem j bw = false -> V (aput k (nw', sz') l) h' j = mset (V l h) k (Some c') j.
Proof.
  intros I Mk C K j Mj. unfold V, mset. rewrite alook_put. change (same k j) with (keqb k j). destruct (keqb_spec k j) as [->|N]; [exact C|].
  destruct (alook j l) as [v|] eqn:E; [|reflexivity]. apply K.
  - eapply inv_hand; eauto.
  - eapply inv_alive; eauto.
  - unfold oldv. destruct (alook k l) as [w|] eqn:F; [eapply inv_diff; eauto|].
    cbn. intros Z. apply (inv_alive _ _ _ _ _ _ _ I E Mj). rewrite Z. reflexivity.
Qed.
Lemma keep_view_same l h h' rbs bw nw :
  INV l h rbs bw nw -> (forall q, q <> nw -> cont h q <> None -> cont h' q = cont h q) ->
  forall j, mem j bw = false -> V l h' j = V l h j.
Proof.
  intros I K j Mj. unfold V. destruct (alook j l) as [v|] eqn:E; [|reflexivity]. apply K; [eapply inv_hand; eauto|eapply inv_alive; eauto].
Qed.

Lemma inv_alloc l h rbs bw c : INV l h rbs bw 0 -> INV l (h ++ [(c, true)]) rbs bw (N.of_nat (length h) + 1).
Proof.
  intros [ND H]. split; [exact ND|]. intros p. specialize (H p). rewrite halloc_ok, (N.eqb_sym p (_ + 1)).
  assert (Z : b2n (negb (p =? 0) && (0 =? p)) = 0%nat) by (destruct (N.eqb_spec p 0), (N.eqb_spec 0 p); try reflexivity; lia).
  rewrite Z in H. destruct (N.eqb_spec (N.of_nat (length h) + 1) p) as [<-|].
  - rewrite cont_fresh in H. cbn [isS b2n] in *. destruct (N.eqb_spec (N.of_nat (length h) + 1) 0); [lia|]. cbn [negb andb b2n]. lia.
  - rewrite andb_false_r. cbn [b2n]. lia.
Qed.

Lemma mset_ext m1 m2 k c j : m1 j = m2 j -> mset m1 k c j = mset m2 k c j.
Proof. unfold mset. intros ->. reflexivity. Qed.
Lemma plain_set_eq m k c mg a fn : k <> [] -> plain_step m (KSet k c mg a fn) =
  match accepted fn (m (can k)) (as_stored c mg) with
  | Some c' => archive (mset m (can k) (Some c')) a (m (can k))
  | None => m
  end.
Proof. destruct k; [congruence|reflexivity]. Qed.
Lemma plain_unset_eq m k a fn : k <> [] -> plain_step m (KUnset k a fn) =
  if allows fn (m (can k)) then archive (mset m (can k) None) a (m (can k)) else m.
Proof. destruct k; [congruence|reflexivity]. Qed.

Lemma kset_ok (s : skv) l rbs bw k c m a fn :
  k <> [] -> bk s = map one l -> INV l (heap s) rbs bw 0 -> mem (can k) bw = false ->
  (forall x, a = Some x -> mem (can x) bw = false) -> rb s = None \/ rb s = Some rbs ->
  exists s' w l', sset s k c m a fn = Ok (s', 0%Z, w) /\ ub s' = ub s /\ bk s' = map one l' /\
    (length (heap s) <= length (heap s'))%nat /\
    match accepted fn (V l (heap s) (can k)) (as_stored c m) with
    | None => l' = l /\ rb s' = rb s /\ INV l (heap s') rbs bw 0 /\
              forall q, cont (heap s) q <> None -> cont (heap s') q = cont (heap s) q
    | Some c' => exists nw sz,
        let old := oldv (can k) l in
        let l1 := aput (can k) (nw, sz) l in
        let es := match a with
                  | None => [ent (can k) old false false]
                  | Some x => if fst old =? 0 then [ent (can k) old true false]
                              else [ent (can k) old true false; ent (can x) (oldv (can x) l1) false true]
                  end in
        N.of_nat (length (heap s)) < nw /\
        l' = match a with Some x => if fst old =? 0 then l1 else aput (can x) old l1 | None => l1 end /\
        rb s' = match rb s with Some _ => Some (rbs ++ es) | None => None end /\
        INV l' (heap s') (match rb s with Some _ => rbs ++ es | None => rbs end) bw 0 /\
        (rb s <> None -> forall q, cont (heap s) q <> None -> cont (heap s') q = cont (heap s) q)
    end /\
    forall j, mem j bw = false -> V l' (heap s') j = plain_step (V l (heap s)) (KSet k c m a fn) j.
Proof.
  intros Kn Hb I Mk Ma Hr. rewrite plain_set_eq by exact Kn. destruct k as [|k0 kt]; [congruence|]. set (k := k0 :: kt) in *.
  unfold sid_kvs_set. unfold k at 1. unfold halloc. change (k0 :: kt) with k. clearbody k. rewrite made_as.
  set (h0 := heap s ++ [(as_stored c m, true)]). set (n0 := N.of_nat (length (heap s)) + 1).
  assert (I0 : INV l h0 rbs bw n0) by (apply inv_alloc; exact I).
  assert (C0 : cont h0 n0 = Some (as_stored c m)) by (unfold h0, n0; rewrite halloc_ok, N.eqb_refl; reflexivity).
  assert (K0 : forall q, cont (heap s) q <> None -> q <> n0 /\ cont h0 q = cont (heap s) q).
  { intros q Q. assert (q <> n0) by (intros ->; apply Q; apply cont_fresh). split; [assumption|].
    unfold h0. rewrite halloc_ok. fold n0. destruct (N.eqb_spec q n0); [lia|reflexivity]. }
  assert (V0 : forall j, mem j bw = false -> V l h0 j = V l (heap s) j).
  { intros j Mj. unfold V. destruct (alook j l) as [v|] eqn:E; [|reflexivity]. apply K0. eapply inv_alive; eauto. }
  assert (L0 : length h0 = S (length (heap s))) by (unfold h0; rewrite app_length; cbn; lia).
  set (has := match a with Some _ => true | None => false end).
  destruct (set_value_ok (with_heap spec_backend s h0) l rbs bw (can k) n0 (vsize c m) fn has false _ Hb I0 C0 Mk Hr)
    as (s1 & nw & x & R & U1 & L1 & P). cbn [heap with_heap rb] in L1, P. cbn [ub with_heap] in U1.
  rewrite R. cbn [obind]. rewrite (V0 _ Mk) in P.
  destruct (accepted fn (V l (heap s) (can k)) (as_stored c m)) as [c'|] eqn:Acc.
  2:{ destruct P as (B1 & R1 & I1 & -> & K1).
      exists s1, nw, l. split; [destruct a; reflexivity|]. split; [exact U1|]. split; [exact B1|]. split; [lia|].
      split. { split; [reflexivity|]. split; [exact R1|]. split; [exact I1|]. intros q Q. destruct (K0 q Q) as [Q1 Q2]. rewrite K1; congruence. }
      intros j Mj. unfold V. destruct (alook j l) as [v|] eqn:E; [|reflexivity].
      assert (Q := inv_alive _ _ _ _ _ _ _ I E Mj). destruct (K0 _ Q) as [Q1 Q2]. rewrite K1; congruence. }
  destruct P as (sz' & B1 & R1 & X1 & I1 & C1 & K1 & D1 & _).
  assert (R1' : rb s1 = match rb s with Some _ => Some (rbs ++ [ent (can k) (oldv (can k) l) has false]) | None => None end)
    by (rewrite R1; destruct (rb s); reflexivity).
  assert (Nw : N.of_nat (length (heap s)) < nw) by (unfold n0 in D1; destruct D1; lia).
  assert (V1 : forall j, mem j bw = false -> V (aput (can k) (nw, sz') l) (heap s1) j = mset (V l (heap s)) (can k) (Some c') j).
  { intros j Mj. erewrite keep_view with (h := h0) (nw := n0); [|exact I0|exact Mk|exact C1|intros q Q1 Q2 Q3; apply K1; auto|exact Mj].
    unfold mset. destruct (same (can k) j); [reflexivity|apply V0; exact Mj]. }
  destruct a as [ak|]; cbn [archive].
  - unfold has in *. subst x. destruct (oldv (can k) l) as [ov osz] eqn:EO. cbn [fst] in *.
    pose proof (inv_old0 _ _ _ _ _ _ I Mk) as Z0. rewrite EO in Z0. cbn [fst] in Z0.
    destruct (N.eqb_spec ov 0) as [E0|N0].
    + assert (VN : V l (heap s) (can k) = None) by (unfold V; rewrite (proj1 Z0 E0); reflexivity).
      exists s1, nw, (aput (can k) (nw, sz') l). split; [reflexivity|]. split; [exact U1|]. split; [exact B1|]. split; [lia|]. split.
      * exists nw, sz'. cbn zeta. split; [exact Nw|]. split; [reflexivity|]. split; [exact R1'|]. split; [rewrite E0 in I1; rewrite E0; exact I1|].
        intros Rn q Q. destruct (K0 q Q) as [Q1 Q2]. rewrite K1; try congruence.
      * intros j Mj. rewrite VN. apply V1. exact Mj.
    + assert (Sv : alook (can k) l = Some (ov, osz)).
      { unfold oldv in EO. destruct (alook (can k) l) as [v|] eqn:E; [congruence|]. injection EO as <- <-. congruence. }
      assert (Al : cont (heap s) ov <> None) by (apply (inv_alive _ _ _ _ _ _ _ I Sv Mk)).
      destruct (K0 _ Al) as [Q1 Q2].
      assert (C1o : cont (heap s1) ov = cont (heap s) ov) by (rewrite K1; congruence).
      destruct (cont (heap s) ov) as [oc|] eqn:Eoc; [|congruence].
      assert (VS : V l (heap s) (can k) = Some oc) by (unfold V; rewrite Sv; exact Eoc).
      set (es1 := match rb s with Some _ => rbs ++ [ent (can k) (ov, osz) true false] | None => rbs end) in *.
      assert (Hr1 : rb s1 = None \/ rb s1 = Some es1) by (rewrite R1; destruct (rb s); auto).
      destruct (set_value_ok s1 (aput (can k) (nw, sz') l) es1 bw (can ak) ov osz None false true oc B1 I1 C1o (Ma _ eq_refl) Hr1)
        as (s2 & nw2 & x2 & R2 & U2 & L2 & P2). cbn [accepted] in P2.
      destruct P2 as (sz2 & B2 & R2' & X2 & I2 & C2 & K2 & _ & F2). destruct (F2 eq_refl) as [-> ->].
      rewrite R2. cbn [obind]. subst x2. cbn [fst] in I2.
      eexists s2, nw, _. split; [reflexivity|]. split; [congruence|]. split; [exact B2|]. split; [lia|]. split.
      * exists nw, sz'. cbn zeta. split; [exact Nw|]. split; [reflexivity|]. unfold es1 in R2', I2. rewrite R1' in R2', I2.
        split; [destruct (rb s); [rewrite <- app_assoc in R2'|]; exact R2'|].
        split; [destruct (rb s); [rewrite <- app_assoc in I2|]; exact I2|].
        intros Rn q Q. destruct (K0 q Q) as [Q3 Q4]. assert (E1 : cont (heap s1) q = cont (heap s) q) by (rewrite K1; congruence).
        destruct (N.eq_dec q ov) as [->|Nq]; [congruence|]. rewrite K2; try congruence.
        intros X. exfalso. rewrite R1 in X. destruct (rb s); congruence.
      * intros j Mj. rewrite VS.
        erewrite keep_view with (h := heap s1) (nw := ov); [|exact I1|exact (Ma _ eq_refl)|exact C2|intros q T1 T2 T3; apply K2; auto|exact Mj].
        apply mset_ext, V1, Mj.
  - unfold has in *. subst x. cbn [fst] in *. exists s1, nw, (aput (can k) (nw, sz') l). split; [reflexivity|]. split; [exact U1|].
    split; [exact B1|]. split; [lia|]. split; [|exact V1].
    exists nw, sz'. cbn zeta. split; [exact Nw|]. split; [reflexivity|]. split; [exact R1'|]. split; [exact I1|].
    intros Rn q Q. destruct (K0 q Q) as [Q1 Q2]. rewrite K1; congruence.
Qed.

(* Removing a key. *)
Lemma inv_del_hand l h rbs bw k : INV l h rbs bw 0 -> mem k bw = false -> INV (adel k l) h rbs bw (fst (oldv k l)).
Proof.
  intros I Mk. split; [apply NoDup_del, I|]. intros p. pose proof (cl_del bw k l p (proj1 I)) as D.
  rewrite (here_old _ _ _ _ _ k p I Mk) in D. destruct I as [_ H]. specialize (H p).
  assert (Z : b2n (negb (p =? 0) && (0 =? p)) = 0%nat) by (destruct (N.eqb_spec p 0), (N.eqb_spec 0 p); try reflexivity; lia).
  lia.
Qed.
Lemma inv_free l h rbs bw hand : INV l h rbs bw hand ->
  exists h', hfree h hand = Ok h' /\ INV l h' rbs bw 0 /\ (forall q, q <> hand -> cont h' q = cont h q) /\ length h' = length h.
Proof.
  intros [ND H]. assert (Z : forall p, b2n (negb (p =? 0) && (0 =? p)) = 0%nat) by (intros p; destruct (N.eqb_spec p 0), (N.eqb_spec 0 p); try reflexivity; lia).
  destruct (N.eq_dec hand 0) as [->|N0]; [exists h; repeat split; auto|].
  pose proof (H hand) as Hh. rewrite N.eqb_refl in Hh. destruct (N.eqb_spec hand 0); [lia|]. cbn [negb andb b2n] in Hh.
  destruct (cont h hand) as [c|] eqn:E; [|cbn in Hh; lia]. destruct (hfree_ok _ _ _ E) as (h' & F & C & L).
  exists h'. split; [exact F|]. split; [|split; [intros q Q; rewrite C; destruct (N.eqb_spec q hand); congruence|exact L]].
  split; [exact ND|]. intros p. specialize (H p). rewrite C, Z. rewrite (N.eqb_sym p hand). destruct (N.eqb_spec hand p) as [Ep|].
  - rewrite <- Ep in *. rewrite E in H. cbn [isS b2n] in *. destruct (N.eqb_spec hand 0); [lia|]. cbn [negb andb b2n] in H. lia.
  - rewrite andb_false_r in H. cbn [b2n] in H. lia.
Qed.
Lemma V_del l h k j : V (adel k l) h j = mset (V l h) k None j.
Proof. unfold V, mset. rewrite alook_del. change (same k j) with (keqb k j). destruct (keqb k j); reflexivity. Qed.

Lemma allows_code fn o : code01 fn -> (match fn with Some f => f o | None => 1%Z end) = if allows fn o then 1%Z else 0%Z.
Proof. destruct fn as [f|]; cbn; [|reflexivity]. intros H. destruct (H o) as [-> | ->]; reflexivity. Qed.

Lemma unset_code (s : skv) l rbs bw k fn :
  bk s = map one l -> INV l (heap s) rbs bw 0 -> mem k bw = false -> code01 fn ->
  (match fn with Some fn => let! oc := content_of (heap s) (fst (oldv k l)) in Ok (fn oc) | None => Ok 1%Z end)
  = Ok (if allows fn (V l (heap s) k) then 1%Z else 0%Z).
Proof.
  intros Hb I Mk Hc. rewrite <- (allows_code fn _ Hc). destruct fn as [f|]; [|reflexivity].
  rewrite content_of_ok; [cbn [obind]; rewrite V_old; reflexivity|].
  unfold oldv. destruct (alook k l) as [v|] eqn:E; [right; eapply inv_alive; eauto|left; reflexivity].
Qed.

(* ... outside a transaction *)
Lemma unset_value_ok (s : skv) l rbs bw k fn has :
  bk s = map one l -> INV l (heap s) rbs bw 0 -> mem k bw = false -> code01 fn ->
  exists s' x, sunset_value s k fn has false = Ok (s', x) /\ rb s' = rb s /\ ub s' = ub s /\
    if allows fn (V l (heap s) k)
    then bk s' = map one (adel k l) /\ x = (if has then oldv k l else (0, 0)) /\ INV (adel k l) (heap s') rbs bw (fst x) /\
         (forall q, (has = false -> q <> fst (oldv k l)) -> cont (heap s') q = cont (heap s) q)
    else bk s' = map one l /\ heap s' = heap s /\ x = (0, 0).
Proof.
  intros Hb I Mk Hc. unfold unset_value. cbn [blook bupd spec_backend]. rewrite Hb. cbn [obind]. rewrite found_one.
  rewrite (unset_code _ _ _ _ _ _ Hb I Mk Hc). cbn [obind]. destruct (allows fn (V l (heap s) k)).
  2:{ cbn [Z.eqb]. eexists _, _. split; [reflexivity|]. cbn. repeat split; auto. }
  cbn [Z.eqb Pos.eqb].
  assert (G : forall h', (forall q, (has = false -> q <> fst (oldv k l)) -> cont h' q = cont (heap s) q) ->
     INV (adel k l) h' rbs bw (if has then fst (oldv k l) else 0) ->
     exists s' x, (let! b := Ok (fst (gstep (bk (with_heap spec_backend s h')) (BUpdate k (fun _ => (BREMOVE, (0, 0)))))) in
       Ok (with_bk spec_backend (with_heap spec_backend s h') b, if has then (fst (oldv k l), snd (oldv k l)) else (0, 0))) = Ok (s', x) /\
       rb s' = rb s /\ ub s' = ub s /\ bk s' = map one (adel k l) /\ x = (if has then oldv k l else (0, 0)) /\ INV (adel k l) (heap s') rbs bw (fst x) /\
       (forall q, (has = false -> q <> fst (oldv k l)) -> cont (heap s') q = cont (heap s) q)).
  { intros h' K I'. cbn [obind]. eexists _, _. split; [reflexivity|]. cbn [rb ub with_bk with_heap bk heap]. split; [reflexivity|]. split; [reflexivity|].
    split; [unfold gstep; cbn [fst]; rewrite Hb; apply gdel_one|]. split; [destruct has; [destruct (oldv k l)|]; reflexivity|].
    split; [destruct has; exact I'|exact K]. }
  assert (I' := inv_del_hand _ _ _ _ _ I Mk).
  destruct has.
  - rewrite andb_false_r. cbn [obind Z.eqb].
    destruct (G (heap s) (fun q _ => eq_refl) I') as (s' & x & E & X). exists s', x. split; [|exact X].
    destruct s; exact E.
  - rewrite andb_true_r.
    destruct (inv_free _ _ _ _ _ I') as (h' & F & IF & KF & LF).
    destruct (G h') as (s' & x & E & X); [intros q Hq; apply KF; auto|exact IF|].
    exists s', x. split; [|exact X]. rewrite <- E. clear E X G I' IF KF. unfold oldv in F |- *. destruct (alook k l) as [v|].
    + cbn [N.eqb Pos.eqb]. rewrite F. reflexivity.
    + cbn in F. injection F as <-. destruct s; reflexivity.
Qed.

Lemma kunset_ok (s : skv) l k a fn :
  k <> [] -> bk s = map one l -> INV l (heap s) [] [] 0 -> rb s = None -> ub s = None -> code01 fn ->
  exists s' l', sunset s k a fn = Ok (s', 0%Z) /\ rb s' = None /\ ub s' = None /\ bk s' = map one l' /\ INV l' (heap s') [] [] 0 /\
    forall j, V l' (heap s') j = plain_step (V l (heap s)) (KUnset k a fn) j.
Proof.
  intros Kn Hb I Hr Hu Hc. rewrite plain_unset_eq by exact Kn. destruct k as [|k0 kt]; [congruence|]. set (k := k0 :: kt) in *.
  unfold sid_kvs_unset. unfold k at 1. rewrite Hu. change (k0 :: kt) with k. clearbody k.
  set (has := match a with Some _ => true | None => false end).
  destruct (unset_value_ok s l [] [] (can k) fn has Hb I eq_refl Hc) as (s1 & x & R & R1 & U1 & P).
  rewrite R. cbn [obind]. destruct x as [av asz]. destruct (allows fn (V l (heap s) (can k))).
  2:{ destruct P as (B1 & H1 & X). injection X as -> ->. exists s1, l. split; [destruct a; reflexivity|]. rewrite H1, R1, U1. auto 10. }
  destruct P as (B1 & X & I1 & K1).
  assert (VK : forall j, V (adel (can k) l) (heap s1) j = mset (V l (heap s)) (can k) None j).
  { intros j. rewrite <- V_del. unfold V. destruct (alook j (adel (can k) l)) as [v|] eqn:E; [|reflexivity]. apply K1. intros _.
    rewrite alook_del in E. destruct (keqb_spec (can k) j) as [|Nj]; [discriminate|]. unfold oldv.
    destruct (alook (can k) l) as [w|] eqn:Ew; [apply (inv_diff _ _ _ _ _ j (can k) v w I E Ew eq_refl eq_refl); congruence|]. cbn. intros z. apply (inv_alive _ _ _ _ _ _ _ I E eq_refl). rewrite z. reflexivity. }
  destruct a as [ak|]; cbn [archive]; unfold has in *.
  - destruct (oldv (can k) l) as [ov osz] eqn:EO. injection X as -> ->. cbn [fst] in *.
    pose proof (inv_old0 _ _ _ _ _ (can k) I eq_refl) as Z0. rewrite EO in Z0. cbn [fst] in Z0.
    destruct (N.eqb_spec ov 0) as [E0|N0].
    + assert (VN : V l (heap s) (can k) = None) by (unfold V; rewrite (proj1 Z0 E0); reflexivity).
      rewrite VN. exists s1, (adel (can k) l). rewrite R1, U1, Hr, Hu. split; [reflexivity|]. split; [auto|]. split; [auto|]. split; [exact B1|].
      split; [rewrite E0 in I1; exact I1|exact VK].
    + assert (Sv : alook (can k) l = Some (ov, osz)).
      { unfold oldv in EO. destruct (alook (can k) l) as [v|] eqn:E; [congruence|]. injection EO as <- <-. congruence. }
      assert (Al : cont (heap s) ov <> None) by (apply (inv_alive _ _ _ _ _ _ _ I Sv eq_refl)).
      assert (C1o : cont (heap s1) ov = cont (heap s) ov) by (apply K1; discriminate).
      destruct (cont (heap s) ov) as [oc|] eqn:Eoc; [|congruence].
      assert (VS : V l (heap s) (can k) = Some oc) by (unfold V; rewrite Sv; exact Eoc). rewrite VS.
      destruct (set_value_ok (with_rb spec_backend s1 None) (adel (can k) l) [] [] (can ak) ov osz None false true oc B1 I1 C1o eq_refl (or_introl eq_refl))
        as (s2 & nw2 & x2 & R2 & U2 & L2 & P2). cbn [accepted heap rb ub with_rb] in *.
      destruct P2 as (sz2 & B2 & R2' & X2 & I2 & C2 & K2 & _ & F2). destruct (F2 eq_refl) as [-> ->].
      rewrite R2. cbn [obind]. subst x2. cbn [fst] in I2.
      eexists _, _. split; [reflexivity|]. cbn [with_rb rb ub bk heap]. rewrite R1, U2, U1.
      split; [exact Hr|]. split; [exact Hu|]. split; [exact B2|]. split; [exact I2|].
      intros j. erewrite keep_view with (h := heap s1) (nw := ov); [|exact I1|reflexivity|exact C2|intros q T1 T2 T3; apply K2; auto|reflexivity].
      apply mset_ext, VK.
  - exists s1, (adel (can k) l). injection X as -> ->. cbn [fst] in *. rewrite R1, U1. auto 10.
Qed.

Definition St (s : skv) (l : al) (m : cmap) : Prop :=
  bk s = map one l /\ rb s = None /\ ub s = None /\ INV l (heap s) [] [] 0 /\ forall j, V l (heap s) j = m j.

Lemma kget_ok (s : skv) l rbs bw k : bk s = map one l -> INV l (heap s) rbs bw 0 -> mem (can k) bw = false ->
  sid_kvs_get spec_backend s k = Ok (reads (V l (heap s)) k).
Proof.
  intros Hb I Mk. unfold sid_kvs_get, reads. destruct k as [|k0 kt]; [reflexivity|]. set (k := k0 :: kt) in *. clearbody k.
  cbn [blook spec_backend]. rewrite Hb. cbn [obind]. rewrite found_one. unfold V, oldv. destruct (alook (can k) l) as [v|] eqn:E; [|reflexivity].
  assert (A := inv_alive _ _ _ _ _ _ _ I E Mk). destruct (N.eqb_spec (fst v) 0) as [e|]; [rewrite e in A; exfalso; apply A; reflexivity|].
  destruct (cont (heap s) (fst v)) as [c|] eqn:Ec; [|congruence]. rewrite (hread_ok _ _ _ Ec). reflexivity.
Qed.

Definition okeys (o : kop) : list bytes :=
  match o with
  | KSet k _ _ a _ | KUnset k a _ => can k :: match a with Some x => [can x] | None => [] end
  | _ => []
  end.
Lemma plain_ext m1 m2 o j : (forall k, In k (okeys o) -> m1 k = m2 k) -> m1 j = m2 j -> plain_step m1 o j = plain_step m2 o j.
Proof.
  intros H Hj. destruct o as [k c m a fn|k a fn|k|k a f| |b|]; cbn [okeys] in *; try exact Hj; (destruct k as [|k0 kt]; [exact Hj|]);
    rewrite ?plain_set_eq, ?plain_unset_eq by discriminate; set (k := k0 :: kt) in *; clearbody k; rewrite (H (can k) (or_introl eq_refl)).
  - destruct (accepted _ _ _); [|exact Hj]. unfold archive, mset. destruct a as [x|]; [|destruct (same (can k) j); auto].
    destruct (m2 (can k)); [destruct (same (can x) j); auto|]; destruct (same (can k) j); auto.
  - destruct (allows _ _); [|exact Hj]. unfold archive, mset. destruct a as [x|]; [|destruct (same (can k) j); auto].
    destruct (m2 (can k)); [destruct (same (can x) j); auto|]; destruct (same (can k) j); auto.
Qed.
Lemma plain_off m o j : ~ In j (okeys o) -> plain_step m o j = m j.
Proof.
  intros H. destruct o as [k c m' a fn|k a fn|k|k a f| |b|]; cbn [okeys In] in *; try reflexivity; (destruct k as [|k0 kt]; [reflexivity|]);
    rewrite ?plain_set_eq, ?plain_unset_eq by discriminate; set (k := k0 :: kt) in *; clearbody k.
  - destruct (accepted _ _ _); [|reflexivity]. unfold archive, mset.
    destruct a as [x|]; [destruct (m (can k))|];
      repeat match goal with |- context [same ?p ?q] => destruct (same_spec p q) end; try reflexivity; exfalso; apply H; cbn; auto.
  - destruct (allows _ _); [|reflexivity]. unfold archive, mset.
    destruct a as [x|]; [destruct (m (can k))|];
      repeat match goal with |- context [same ?p ?q] => destruct (same_spec p q) end; try reflexivity; exfalso; apply H; cbn; auto.
Qed.

Lemma plain_ok s l m o : St s l m -> data_op o ->
  exists s' l' r, kstep spec_backend s o = Ok (s', r) /\ St s' l' (plain_step m o) /\ code_ok o r.
Proof.
  intros (Hb & Hr & Hu & I & HV) D. destruct o as [k c mg a fn|k a fn|k|k a f| |b|]; cbn [data_op kstep] in *; try contradiction.
  - destruct k as [|k0 kt].
    + cbn [sid_kvs_set obind]. exists s, l. eexists. split; [reflexivity|]. split; [repeat split; auto; apply I|reflexivity].
    + destruct (kset_ok s l [] [] (k0 :: kt) c mg a fn) as (s' & w & l' & R & U & B' & L & P & VV); auto; try discriminate.
      rewrite R. cbn [obind]. exists s', l'. eexists. split; [reflexivity|]. split; [|reflexivity].
      split; [exact B'|]. destruct (accepted _ _ _).
      * destruct P as (nw & sz & _ & _ & R' & I' & _). rewrite Hr in R', I'. split; [exact R'|]. split; [congruence|]. split; [exact I'|].
        intros j. rewrite VV by reflexivity. apply plain_ext; [intros; apply HV|apply HV].
      * destruct P as (-> & R' & I' & _). split; [congruence|]. split; [congruence|]. split; [exact I'|].
        intros j. rewrite VV by reflexivity. apply plain_ext; [intros; apply HV|apply HV].
  - destruct k as [|k0 kt].
    + cbn [sid_kvs_unset obind]. exists s, l. eexists. split; [reflexivity|]. split; [repeat split; auto; apply I|reflexivity].
    + destruct (kunset_ok s l (k0 :: kt) a fn) as (s' & l' & R & R' & U' & B' & I' & VV); auto; try discriminate.
      rewrite R. cbn [obind]. exists s', l'. eexists. split; [reflexivity|]. split; [|reflexivity].
      split; [exact B'|]. split; [exact R'|]. split; [exact U'|]. split; [exact I'|].
      intros j. rewrite VV. apply plain_ext; [intros; apply HV|apply HV].
  - rewrite (kget_ok s l [] [] k Hb I eq_refl). unfold obind. destruct (reads (V l (heap s)) k) as [c z]. exists s, l. eexists. split; [reflexivity|].
    split; [repeat split; auto; apply I|exact Logic.I].
  - exists s, l. eexists. split; [reflexivity|]. split; [repeat split; auto; apply I|exact Logic.I].
Qed.
