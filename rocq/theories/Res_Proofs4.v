From Verif Require Import Base Res_Model Res_Spec Res_Proofs Res_Proofs2 Res_Proofs3.
Local Open Scope nat_scope.

Lemma kill_root rf rf' r ts : (forall x, In x (List.concat (map flat ts)) -> rf x = rf' x) -> kill rf (Node r ts) = kill rf' (Node r ts).
Proof.
  intros H. rewrite !kill_node. assert (S : forall u, In u (rev ts) -> step rf u = step rf' u). { intros u I. apply in_rev in I. apply step_ext. intros x Ix. apply H, in_concat. exists (flat u). split; [apply in_map, I|exact Ix]. }
  f_equal; [f_equal|]; f_equal; apply map_ext_in; intros u I; rewrite (S u I); reflexivity.
Qed.
Lemma in_kill_root rf t : In (root t) (fst (kill rf t)).
Proof. destruct t as [r ts]. rewrite kill_node. cbn [fst root]. apply in_or_app. right. left. reflexivity. Qed.
Lemma depth_subs r ts f : depth (Node r ts) <= S f -> Forall (fun u => depth u <= f) ts.
Proof. cbn [depth]. intros D. apply le_S_n in D. apply Forall_forall. intros u I. etransitivity; [|exact D]. clear - I. induction ts as [|t ts IH]; [destruct I|]. cbn [map list_max fold_right]. destruct I as [->|I]; [lia|]. specialize (IH I). unfold list_max in IH. lia. Qed.
Lemma same_tree s s' t : same_links s s' -> tree_at s t -> tree_at s' t.
Proof.
  intros S. induction t as [r ts IH] using tree_ind'. intros T. inversion T as [r' k ts' G E F P]; subst. pose proof (S r) as Sr. rewrite G in Sr. destruct (rget s' r) as [k'|] eqn:G'; [|contradiction]. destruct Sr as (_ & E' & _). rewrite Forall_forall in *.
  apply (TA _ r k'); [exact G'|congruence| |]; apply Forall_forall; intros u I; [apply IH; auto|]. apply (same_parent _ _ S), P, I.
Qed.
Definition last_ref (k : rrec) : bool := match r_parent k with Some _ => (r_refs k =? 1)%N | None => (r_refs k <=? 1)%N end.
Lemma unref_lemma s t k : good s -> tree_at s t -> rget s (root t) = Some k ->
  unref s (root t) = if last_ref k then Ok (take (fst (kill (refs_of s) t)) (snd (kill (refs_of s) t)) s, fst (kill (refs_of s) t)) else Ok (rset s (root t) (Some (set_refs k (dec (r_refs k)))), []).
Proof.
  intros Gd T G. pose proof (tree_depth _ _ Gd T) as D. unfold unref, fuel_of. destruct t as [r ts]. cbn [root] in *. unfold fuel_of in D.
  rewrite do_unref_S, (the_get _ _ _ G). cbn [obind].
  assert (W : Forall (works (length s)) ts).
  { assert (Dl : depth (Node r ts) <= S (length s)) by lia. apply depth_subs in Dl. rewrite Forall_forall in *. intros u I. apply works_lemma, Dl, I. }
  pose proof (destroyed_lemma (length s) s r ts k Gd T G W) as X. unfold destroyed in X. unfold last_ref.
  destruct (r_parent k) as [p|] eqn:P; cbn [negb andb].
  - destruct (r_refs k =? 1)%N eqn:E; [cbn [obind]; exact X|]. cbn [obind]. destruct (dec (r_refs k) =? 0)%N eqn:E'; [|reflexivity]. exfalso. unfold dec in E'. clear - E E'. destruct (r_refs k =? 0)%N eqn:E0; lia.
  - destruct (r_refs k =? 0)%N eqn:E0; [replace (r_refs k <=? 1)%N with true by lia; cbn [obind]; exact X|]. cbn [obind]. destruct (dec (r_refs k) =? 0)%N eqn:E'.
    + assert (E1 : (r_refs k <=? 1)%N = true) by (unfold dec in E'; rewrite E0 in E'; clear - E'; lia). rewrite E1. clear X.
      set (k' := set_refs k (dec (r_refs k))). set (s' := rset s r (Some k')). assert (S : same_links s s') by (apply (same_set s r k k' G); reflexivity).
      assert (Lr : r < length s) by (eapply rget_lt, G). assert (G' : rget s' r = Some k') by (unfold s'; rewrite rget_rset, Nat.eqb_refl by exact Lr; reflexivity). assert (L' : length s' = length s) by (apply rset_length, Lr).
      pose proof (destroyed_lemma (length s) s' r ts k' (same_good _ _ S Gd) (same_tree _ _ _ S T) G' W) as X. unfold destroyed in X. change (r_children k') with (r_children k) in X.
      rewrite X. pose proof (flat_nodup _ Gd _ T) as ND. cbn [flat] in ND. inversion ND as [|? ? N1 N2]; subst.
      rewrite (kill_root (refs_of s') (refs_of s)). { f_equal. f_equal. apply st_ext; [rewrite !take_length; exact L'|]. intros x. rewrite !take_get. destruct (mem_spec x (fst (kill (refs_of s) (Node r ts)))) as [|N]; [reflexivity|]. unfold s'. rewrite rget_rset by exact Lr. destruct (Nat.eqb_spec x r) as [->|]; [|reflexivity]. exfalso. apply N. apply (in_kill_root _ (Node r ts)). }
      intros x I. unfold refs_of, s'. rewrite rget_rset by exact Lr. destruct (Nat.eqb_spec x r) as [->|]; [contradiction|reflexivity].
    + assert (E1 : (r_refs k <=? 1)%N = false) by (unfold dec in E'; rewrite E0 in E'; clear - E' E0; lia). rewrite E1. reflexivity.
Qed.
Lemma unref_each p : forall ts s, good s -> Forall (tree_at s) ts -> Forall (fun u => parent_of s (root u) p) ts -> (forall u, In u ts -> refs_of s (root u) = 1%N) -> NoDup (List.concat (map flat ts)) ->
  unref_all s (map root ts) = each (fuel_of s) s (map root ts).
Proof.
  induction ts as [|u ts IH]; intros s Gd T P R D; [reflexivity|]. inversion T as [|? ? T1 T2]; subst. inversion P as [|? ? P1 P2]; subst. cbn [map List.concat] in D |- *. apply nodup_app_inv in D as (D1 & D2 & D3). cbn [unref_all each].
  assert (E : unref s (root u) = do_unref (fuel_of s) s (root u) true).
  { unfold unref, fuel_of. rewrite !do_unref_S. destruct P1 as (k & G & E). rewrite (the_get _ _ _ G). cbn [obind]. rewrite E. specialize (R u (or_introl eq_refl)). unfold refs_of in R. rewrite G in R. rewrite R. reflexivity. }
  rewrite E. pose proof (works_lemma u (fuel_of s) ltac:(pose proof (tree_depth _ _ Gd T1); lia) s p Gd T1 P1) as W. rewrite W. cbn [obind].
  set (d := fst (step (refs_of s) u)) in *. set (e := snd (step (refs_of s) u)) in *.
  assert (Out : forall v, In v ts -> forall x, In x (flat v) -> ~ In x d /\ ~ In x e).
  { intros v Iv x Ix. assert (N : ~ In x (flat u)) by (intros C; apply (D3 x C), in_concat; exists (flat v); split; [apply in_map, Iv|exact Ix]). split; intros C; apply N, (step_in (refs_of s)); auto. }
  rewrite Forall_forall in T2, P2. rewrite IH; [unfold fuel_of; rewrite take_length; reflexivity| | | | |exact D2].
  - apply take_good; [exact Gd|apply step_closed; assumption].
  - apply Forall_forall. intros v Iv. apply take_tree; [apply T2, Iv|apply Out, Iv].
  - apply Forall_forall. intros v Iv. apply take_parent. split; [apply P2, Iv|]. apply (Out v Iv), root_flat.
  - intros v Iv. destruct (Out v Iv (root v) (root_flat v)). rewrite take_refs by assumption. apply R. right. exact Iv.
Qed.
Lemma fail_lemma s r ts : good s -> tree_at s (Node r ts) -> (forall u, In u ts -> refs_of s (root u) = 1%N) ->
  exists tr, fst (kill (refs_of s) (Node r ts)) = tr ++ [r] /\ create_fail s r = Ok (take (fst (kill (refs_of s) (Node r ts))) (snd (kill (refs_of s) (Node r ts))) s, tr).
Proof.
  intros Gd T R. pose proof (flat_nodup _ Gd _ T) as ND. cbn [flat] in ND. inversion ND as [|? ? N1 N2]; subst. inversion T as [r' k ts' G E F P]; subst.
  assert (W : Forall (works (fuel_of s)) ts). { rewrite Forall_forall in *. intros u I. apply works_lemma. pose proof (tree_depth _ _ Gd (F u I)). lia. }
  pose proof (destroyed_lemma _ s r ts k Gd T G W) as X. exists (List.concat (map (fun u => fst (step (refs_of s) u)) (rev ts))). rewrite kill_node in *. cbn [fst snd] in *. split; [reflexivity|].
  unfold create_fail. rewrite (the_get _ _ _ G). cbn [obind]. unfold destroyed in X. rewrite E, <- map_rev in X |- *. rewrite (unref_each r); [|exact Gd|apply Forall_rev, F|apply Forall_rev, P|intros u I; apply R; rewrite in_rev; exact I|apply flat_rev, N2].
  destruct (each (fuel_of s) s (map root (rev ts))) as [[s1 tr]|]; [|discriminate X]. cbn [obind] in *. destruct (remove_from_parent s1 r) as [s2|]; [|discriminate X]. cbn [obind] in *. injection X as X1 X2. rewrite X1. f_equal. f_equal. apply app_inv_tail in X2. exact X2.
Qed.

(* The order in which resources are destroyed *)
Lemma step_not1 rf u x : In x (snd (step rf u)) -> rf x <> 1%N.
Proof.
  assert (K : forall t, forall x, In x (snd (kill rf t)) -> rf x <> 1%N).
  { induction t as [r ts IH] using tree_ind'. intros y. rewrite kill_node. cbn [snd]. rewrite in_concat. intros (l & I & H). apply in_map_iff in I as (v & <- & I). apply in_rev in I. rewrite Forall_forall in IH. unfold step in H. destruct (rf (root v) =? 1)%N eqn:E; [exact (IH v I y H)|]. destruct H as [<-|[]]. apply N.eqb_neq, E. }
  unfold step. destruct (rf (root u) =? 1)%N eqn:E; [apply K|]. intros [<-|[]]. apply N.eqb_neq, E.
Qed.
Lemma kill_not1 rf t x : In x (snd (kill rf t)) -> rf x <> 1%N.
Proof. destruct t as [r ts]. rewrite kill_node. cbn [snd]. rewrite in_concat. intros (l & I & H). apply in_map_iff in I as (v & <- & I). eapply step_not1, H. Qed.
Lemma kill_1 rf t x : In x (fst (kill rf t)) -> x = root t \/ rf x = 1%N.
Proof.
  induction t as [r ts IH] using tree_ind'. rewrite kill_node. cbn [fst root]. rewrite in_app_iff, in_concat. intros [(l & I & H)|[->|[]]]; [|left; reflexivity]. right. apply in_map_iff in I as (v & <- & I). apply in_rev in I. rewrite Forall_forall in IH. unfold step in H. destruct (rf (root v) =? 1)%N eqn:E; [|destruct H]. destruct (IH v I H) as [->|H']; [apply N.eqb_eq, E|exact H'].
Qed.
Lemma kill_det s t x : tree_at s t -> In x (snd (kill (refs_of s) t)) -> exists p, parent_of s x p /\ In p (fst (kill (refs_of s) t)).
Proof.
  induction t as [r ts IH] using tree_ind'. intros T. inversion T as [r' k ts' G E F P]; subst. rewrite Forall_forall in IH, F, P. rewrite kill_node. cbn [fst snd]. rewrite in_concat. intros (l & I & H). apply in_map_iff in I as (v & <- & I). apply in_rev in I. unfold step in H. destruct (refs_of s (root v) =? 1)%N eqn:E1.
  - destruct (IH v I (F v I) H) as (p & Pp & Ip). exists p. split; [exact Pp|]. apply in_or_app. left. apply in_concat. exists (fst (step (refs_of s) v)). split; [apply (in_map (fun u => fst (step (refs_of s) u))); apply -> in_rev; exact I|]. unfold step. rewrite E1. exact Ip.
  - destruct H as [<-|[]]. exists r. split; [apply P, I|]. apply in_or_app. right. left. reflexivity.
Qed.
Lemma nodup_steps rf (ts : list tree) : NoDup (List.concat (map flat ts)) -> (forall u, In u ts -> NoDup (fst (step rf u))) -> NoDup (List.concat (map (fun u => fst (step rf u)) ts)).
Proof.
  induction ts as [|u ts IH]; intros D N; [constructor|]. cbn [map List.concat] in *. apply nodup_app_inv in D as (D1 & D2 & D3). apply nodup_app; [apply N; left; reflexivity|apply IH; [exact D2|intros; apply N; right; assumption]|].
  intros x I J. apply (D3 x); [apply (step_in rf); auto|]. apply in_concat in J as (l & Il & J). apply in_map_iff in Il as (v & <- & Iv). apply in_concat. exists (flat v). split; [apply in_map, Iv|apply (step_in rf); auto].
Qed.
Lemma kill_nodup rf t : NoDup (flat t) -> NoDup (fst (kill rf t)).
Proof.
  induction t as [r ts IH] using tree_ind'. intros D. cbn [flat] in D. inversion D as [|? ? D1 D2]; subst. rewrite kill_node. cbn [fst]. rewrite Forall_forall in IH.
  assert (Sub : forall x, In x (List.concat (map (fun u => fst (step rf u)) (rev ts))) -> In x (List.concat (map flat ts))).
  { intros x I. apply in_concat in I as (l & I & H). apply in_map_iff in I as (u & <- & I). apply in_rev in I. apply in_concat. exists (flat u). split; [apply in_map, I|]. apply (step_in rf); auto. }
  apply nodup_app; [|constructor; [intros []|constructor]|intros x I [<-|[]]; apply D1, Sub, I].
  apply nodup_steps; [apply flat_rev, D2|]. intros u I. apply in_rev in I. unfold step. destruct (rf (root u) =? 1)%N; [|constructor]. apply IH; [exact I|]. clear - D2 I. induction ts as [|t ts IH]; [destruct I|]. cbn [map List.concat] in D2. apply nodup_app_inv in D2 as (D1 & D2 & _). destruct I as [->|I]; [exact D1|exact (IH D2 I)].
Qed.
Lemma behind_app_l l m a b : behind l a b -> behind (l ++ m) a b.
Proof. intros (x & y & z & ->). exists x, y, (z ++ m). rewrite <- !app_assoc. cbn [app]. rewrite <- app_assoc. reflexivity. Qed.
Lemma behind_app_r l m a b : behind m a b -> behind (l ++ m) a b.
Proof. intros (x & y & z & ->). exists (l ++ x), y, z. rewrite <- app_assoc. reflexivity. Qed.
Lemma behind_mid l m a b : In a l -> In b m -> behind (l ++ m) a b.
Proof. intros I J. apply in_split in I as (l1 & l2 & ->). apply in_split in J as (m1 & m2 & ->). exists l1, (l2 ++ m1), m2. rewrite <- !app_assoc. reflexivity. Qed.
Lemma behind_concat {A} (f : A -> list nat) l a b x : In x l -> behind (f x) a b -> behind (List.concat (map f l)) a b.
Proof. intros I B. apply in_split in I as (l1 & l2 & ->). rewrite map_app, concat_app. cbn [map List.concat]. apply behind_app_r, behind_app_l, B. Qed.
Lemma in_flat_of ts x : In x (List.concat (map flat ts)) <-> exists u, In u ts /\ In x (flat u).
Proof. rewrite in_concat. split; [intros (l & I & H); apply in_map_iff in I as (u & <- & I); eauto|intros (u & I & H); exists (flat u); split; [apply in_map, I|exact H]]. Qed.
Lemma flat_same ts u v x : NoDup (List.concat (map flat ts)) -> In u ts -> In v ts -> In x (flat u) -> In x (flat v) -> u = v.
Proof.
  induction ts as [|t ts IH]; intros D I J Hu Hv; [destruct I|]. cbn [map List.concat] in D. apply nodup_app_inv in D as (D1 & D2 & D3).
  destruct I as [->|I], J as [->|J]; [reflexivity| | |exact (IH D2 I J Hu Hv)]; exfalso; [apply (D3 x Hu)|apply (D3 x Hv)]; apply in_flat_of; eauto.
Qed.
Lemma kill_order s t : good s -> tree_at s t -> forall x c, In x (fst (kill (refs_of s) t)) -> In c (fst (kill (refs_of s) t)) -> child_of s x c -> behind (fst (kill (refs_of s) t)) c x.
Proof.
  intros Gd. induction t as [r ts IH] using tree_ind'. intros T x c Hx Hc C. pose proof (flat_nodup _ Gd _ T) as D. cbn [flat] in D. inversion D as [|? ? D1 D2]; subst. pose proof (flat_above _ Gd _ T) as FA. inversion T as [r' k ts' G E F P]; subst. rewrite Forall_forall in IH, F, P. rewrite kill_node in *. cbn [fst] in *.
  assert (Cn : c <> r). { intros ->. apply in_app_or in Hx as [Hx|[<-|[]]]; [|apply (not_self _ (g_rank _ Gd) r); apply (proj1 (g_agree _ Gd)); exact C]. apply (proj1 (g_agree _ Gd)) in C. assert (A : above s r x). { apply (FA x). apply flat_in. right. apply in_concat in Hx as (l & I & H). apply in_map_iff in I as (u & <- & I). apply in_rev in I. exists u. split; [exact I|apply (step_in (refs_of s)); auto]. } exact (acyclic _ (g_rank _ Gd) _ _ C A). }
  apply in_app_or in Hc as [Hc|[Hc|[]]]; [|congruence]. apply in_app_or in Hx as [Hx|[<-|[]]]; [|apply behind_mid; [exact Hc|left; reflexivity]].
  apply behind_app_l. apply in_concat in Hx as (l & I & Hx). apply in_map_iff in I as (u & <- & I). apply in_concat in Hc as (l & J & Hc). apply in_map_iff in J as (v & <- & J). rewrite <- in_rev in I, J.
  assert (u = v). { apply (flat_same ts u v c D2 I J); [|apply (step_in (refs_of s)); auto]. apply (flat_above _ Gd _ (F u I)). eapply Ab_up; [apply (proj1 (g_agree _ Gd)); exact C|]. apply (flat_above _ Gd _ (F u I)). apply (step_in (refs_of s)). auto. }
  subst v. apply (behind_concat (fun u => fst (step (refs_of s) u)) (rev ts) c x u); [apply -> in_rev; exact I|]. unfold step in *. destruct (refs_of s (root u) =? 1)%N; [|destruct Hx]. apply IH; auto.
Qed.
Lemma kill_siblings s t : good s -> tree_at s t -> forall x a b, In x (fst (kill (refs_of s) t)) -> In a (fst (kill (refs_of s) t)) -> In b (fst (kill (refs_of s) t)) -> behind (children_of s x) a b -> behind (fst (kill (refs_of s) t)) b a.
Proof.
  intros Gd. induction t as [r ts IH] using tree_ind'. intros T x a b Hx Ha Hb B. pose proof (flat_nodup _ Gd _ T) as D. cbn [flat] in D. inversion D as [|? ? D1 D2]; subst. inversion T as [r' k ts' G E F P]; subst. rewrite Forall_forall in IH, F, P.
  assert (Pa : parent_of s a x) by (apply (proj1 (g_agree _ Gd)), child_in; destruct B as (l & m & n & ->); apply in_or_app; right; left; reflexivity).
  assert (Pb : parent_of s b x) by (apply (proj1 (g_agree _ Gd)), child_in; destruct B as (l & m & n & ->); apply in_or_app; right; right; apply in_or_app; right; left; reflexivity).
  assert (Up : forall y, In y (fst (kill (refs_of s) (Node r ts))) -> y <> r -> exists u, In u ts /\ In y (fst (step (refs_of s) u))).
  { intros y. rewrite kill_node. cbn [fst]. rewrite in_app_iff, in_concat. intros [(l & I & H)|[->|[]]] N; [|contradiction]. apply in_map_iff in I as (u & <- & I). apply in_rev in I. eauto. }
  assert (Rn : forall y, parent_of s y x -> y <> r).
  { intros y Py ->. apply (acyclic _ (g_rank _ Gd) _ _ Py). apply (flat_above _ Gd _ T x). apply (kill_in (refs_of s)). auto. }
  destruct (Up a Ha (Rn a Pa)) as (ua & Ia & Ka). destruct (Up b Hb (Rn b Pb)) as (ub & Ib & Kb). rewrite kill_node. cbn [fst]. apply behind_app_l.
  destruct (Nat.eq_dec x r) as [->|N].
  - rewrite (children_get _ _ _ G), E in B.
    assert (Rt : forall u y, In u ts -> In y (flat u) -> parent_of s y r -> root u = y). { intros u y Iu Iy Py. apply (flat_above _ Gd _ (F u Iu)) in Iy. inversion Iy as [|c q Pq Aq]; subst; [reflexivity|]. rewrite (parent_fun _ _ _ _ Pq Py) in Aq. destruct (acyclic _ (g_rank _ Gd) _ _ (P u Iu) Aq). }
    pose proof (Rt ua a Ia ltac:(apply (step_in (refs_of s)); auto) Pa) as Ea. pose proof (Rt ub b Ib ltac:(apply (step_in (refs_of s)); auto) Pb) as Eb.
    assert (In ub (rev ts) /\ exists l m n, ts = l ++ ua :: m ++ ub :: n) as (_ & l & m & n & Ets).
    { split; [apply -> in_rev; exact Ib|]. destruct B as (l & m & n & B). apply map_eq_app in B as (l' & m' & E1 & E2 & E3). apply map_eq_cons in E3 as (va & m2 & E4 & E5 & E6). apply map_eq_app in E6 as (m3 & m4 & E7 & E8 & E9). apply map_eq_cons in E9 as (vb & m5 & E10 & E11 & E12). subst m4 m2 m' ts.
      assert (va = ua) by (apply (flat_same _ va ua a D2); [apply in_or_app; right; left; reflexivity|exact Ia|rewrite <- E5; apply root_flat|rewrite <- Ea; apply root_flat]).
      assert (vb = ub) by (apply (flat_same _ vb ub b D2); [apply in_or_app; right; right; apply in_or_app; right; left; reflexivity|exact Ib|rewrite <- E11; apply root_flat|rewrite <- Eb; apply root_flat]). subst va vb. eauto. }
    subst ts. rewrite rev_app_distr. cbn [rev]. rewrite rev_app_distr. cbn [rev]. rewrite <- !app_assoc. cbn [app]. rewrite map_app, concat_app. cbn [map List.concat]. apply behind_app_r. apply behind_mid; [exact Kb|]. rewrite map_app, concat_app. cbn [map List.concat]. apply in_or_app. right. apply in_or_app. left. exact Ka.
  - destruct (Up x Hx N) as (u & Iu & Ku).
    assert (Same : forall v y, In v ts -> In y (fst (step (refs_of s) v)) -> parent_of s y x -> v = u).
    { intros v y Iv Iy Py. apply (flat_same ts v u y D2 Iv Iu); [apply (step_in (refs_of s)); auto|]. apply (flat_above _ Gd _ (F u Iu)). eapply Ab_up; [exact Py|]. apply (flat_above _ Gd _ (F u Iu)). apply (step_in (refs_of s)). auto. }
    rewrite (Same ua a Ia Ka Pa) in Ka. rewrite (Same ub b Ib Kb Pb) in Kb. apply (behind_concat (fun u => fst (step (refs_of s) u)) (rev ts) b a u); [apply -> in_rev; exact Iu|]. unfold step in *. destruct (refs_of s (root u) =? 1)%N; [|destruct Kb]. apply (IH u Iu (F u Iu) x); assumption.
Qed.
