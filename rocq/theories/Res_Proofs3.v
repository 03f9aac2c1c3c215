From Verif Require Import Base Res_Model Res_Spec Res_Proofs Res_Proofs2.
Local Open Scope nat_scope.

Lemma remove_filter r l : remove Nat.eq_dec r l = filter (fun c => negb (mem c [r])) l.
Proof. induction l as [|c l IH]; [reflexivity|]. cbn [remove filter]. destruct (mem_spec c [r]) as [[->|[]]|N]; cbn [negb]. { destruct (Nat.eq_dec c c); [exact IH|contradiction]. } destruct (Nat.eq_dec r c) as [->|]; [exfalso; apply N; left; reflexivity|]. f_equal. exact IH. Qed.
Lemma not_child s r x k p : good s -> rget s x = Some k -> parent_of s r p -> x <> p -> filter (fun c => negb (mem c [r])) (r_children k) = r_children k.
Proof.
  intros [(A1 & _) _ _] G P N. apply filter_all. intros c I. destruct (mem_spec c [r]) as [[->|[]]|_]; [|reflexivity]. exfalso. apply N. eapply parent_fun; [|exact P]. apply A1. exists k. auto.
Qed.
Lemma part_lemma s r p : good s -> parent_of s r p -> remove_from_parent s r = Ok (take [] [r] s).
Proof.
  intros Gd P. pose proof P as (k & G & E). destruct (remove_lemma _ _ _ _ Gd G E) as (kp & s' & Gp & N & -> & L & _ & H & _). f_equal. apply st_ext; [rewrite take_length; exact L|].
  intros x. rewrite H, take_get. cbn [mem in_dec]. destruct (mem_spec x []) as [[]|_]. unfold detach. cbn [app].
  destruct (Nat.eqb_spec x r) as [->|Nr]; [|destruct (Nat.eqb_spec x p) as [->|Np]].
  - rewrite G. cbn [option_map]. destruct (mem_spec r [r]) as [_|C]; [|exfalso; apply C; left; reflexivity]. rewrite (not_child s r r k p Gd G P N). reflexivity.
  - rewrite Gp. cbn [option_map]. destruct (mem_spec p [r]) as [[C|[]]|_]; [congruence|]. rewrite <- remove_filter. reflexivity.
  - destruct (rget s x) as [kx|] eqn:Gx; [|reflexivity]. cbn [option_map]. destruct (mem_spec x [r]) as [[C|[]]|_]; [congruence|]. rewrite (not_child s r x kx p Gd Gx P Np). destruct kx; reflexivity.
Qed.
Lemma leave_lemma s r k : good s -> rget s r = Some k -> exists s1, remove_from_parent s r = Ok s1 /\ free s1 r = take [r] [] s.
Proof.
  intros Gd G. destruct (r_parent k) as [p|] eqn:E.
  - assert (P : parent_of s r p) by (exists k; auto). rewrite (part_lemma _ _ _ Gd P). eexists. split; [reflexivity|]. pose proof (rget_lt _ _ _ G) as L. apply st_ext; [unfold free; rewrite rset_length; rewrite ?take_length; [reflexivity|exact L]|].
    intros x. unfold free. rewrite rget_rset by (rewrite take_length; exact L). rewrite !take_get. destruct (mem_spec x []) as [[]|_]. destruct (Nat.eqb_spec x r) as [->|N].
    + destruct (mem_spec r [r]) as [_|C]; [reflexivity|exfalso; apply C; left; reflexivity].
    + destruct (mem_spec x [r]) as [[C|[]]|_]; [congruence|]. destruct (rget s x) as [kx|]; [|reflexivity]. cbn [option_map]. unfold detach. cbn [app]. destruct (mem_spec x [r]) as [[C|[]]|_]; [congruence|]. reflexivity.
  - rewrite (remove_none _ _ _ G E). eexists. split; [reflexivity|]. pose proof (rget_lt _ _ _ G) as L. apply st_ext; [unfold free; rewrite take_length, rset_length by exact L; reflexivity|].
    intros x. unfold free. rewrite rget_rset by exact L. rewrite take_get. destruct (Nat.eqb_spec x r) as [->|N].
    + destruct (mem_spec r [r]) as [_|C]; [reflexivity|exfalso; apply C; left; reflexivity].
    + destruct (mem_spec x [r]) as [[C|[]]|_]; [congruence|]. destruct (rget s x) as [kx|] eqn:Gx; [|reflexivity]. cbn [option_map]. unfold detach. cbn [app mem in_dec].
      rewrite filter_all; [destruct kx; reflexivity|]. intros c I. destruct (mem_spec c [r]) as [[->|[]]|_]; [|reflexivity]. exfalso. destruct (g_agree _ Gd) as (A1 & _). assert (P : parent_of s c x) by (apply A1; exists kx; auto). destruct P as (k' & G' & E'). congruence.
Qed.

(* What the loop does to a tree *)
Definition refs_of (s : st) (x : nat) : N := match rget s x with Some k => r_refs k | None => 0%N end.
Fixpoint kill (rf : nat -> N) (t : tree) : list nat * list nat :=
  match t with Node r ts =>
    let l := rev (map (fun u => if (rf (root u) =? 1)%N then kill rf u else ([], [root u])) ts) in
    (List.concat (map fst l) ++ [r], List.concat (map snd l))
  end.
Definition step (rf : nat -> N) (u : tree) : list nat * list nat := if (rf (root u) =? 1)%N then kill rf u else ([], [root u]).
Lemma kill_node rf r ts : kill rf (Node r ts) = (List.concat (map (fun u => fst (step rf u)) (rev ts)) ++ [r], List.concat (map (fun u => snd (step rf u)) (rev ts))).
Proof. cbn [kill]. rewrite <- map_rev, !map_map. reflexivity. Qed.
Lemma kill_in rf t : forall x, In x (fst (kill rf t)) \/ In x (snd (kill rf t)) -> In x (flat t).
Proof.
  induction t as [r ts IH] using tree_ind'. intros x. rewrite kill_node. cbn [fst snd]. rewrite Forall_forall in IH.
  assert (S : forall u, In u ts -> In x (fst (step rf u)) \/ In x (snd (step rf u)) -> In x (flat u)).
  { intros u I. unfold step. destruct (rf (root u) =? 1)%N; [apply IH, I|]. cbn [fst snd In]. intros [[]|[<-|[]]]. apply root_flat. }
  rewrite in_app_iff, !in_concat. intros [[(l & I & H)|[<-|[]]]|(l & I & H)].
  - apply in_map_iff in I as (u & <- & I). apply in_rev in I. apply flat_in. right. exists u. split; [exact I|]. apply S; auto.
  - apply (root_flat (Node r ts)).
  - apply in_map_iff in I as (u & <- & I). apply in_rev in I. apply flat_in. right. exists u. split; [exact I|]. apply S; auto.
Qed.
Lemma step_in rf u x : In x (fst (step rf u)) \/ In x (snd (step rf u)) -> In x (flat u).
Proof. unfold step. destruct (rf (root u) =? 1)%N; [apply kill_in|]. cbn [fst snd In]. intros [[]|[<-|[]]]. apply root_flat. Qed.
Lemma kill_ext rf rf' t : (forall x, In x (flat t) -> rf x = rf' x) -> kill rf t = kill rf' t.
Proof.
  induction t as [r ts IH] using tree_ind'. intros H. rewrite !kill_node. rewrite Forall_forall in IH.
  assert (S : forall u, In u (rev ts) -> step rf u = step rf' u).
  { intros u I. apply in_rev in I. assert (Hu : forall x, In x (flat u) -> rf x = rf' x) by (intros x Ix; apply H, flat_in; right; cbn [subs]; eauto). unfold step. rewrite (Hu _ (root_flat u)), (IH u I Hu). reflexivity. }
  f_equal; [f_equal|]; f_equal; apply map_ext_in; intros u I; rewrite (S u I); reflexivity.
Qed.
Lemma step_ext rf rf' u : (forall x, In x (flat u) -> rf x = rf' x) -> step rf u = step rf' u.
Proof. intros H. unfold step. rewrite (H _ (root_flat u)), (kill_ext _ _ _ H). reflexivity. Qed.
Lemma kill_closed s t : good s -> tree_at s t -> closed s (fst (kill (refs_of s) t)) (snd (kill (refs_of s) t)).
Proof.
  intros Gd. destruct (g_agree _ Gd) as (A1 & _). induction t as [r ts IH] using tree_ind'. intros T x c. inversion T as [r' k ts' G E F P]; subst. rewrite Forall_forall in IH, F. rewrite kill_node. cbn [fst snd]. rewrite !in_app_iff, !in_concat. intros I Pc.
  assert (Lift : forall u, In u ts -> In c (fst (step (refs_of s) u)) \/ In c (snd (step (refs_of s) u)) -> ((exists l, In l (map (fun u => fst (step (refs_of s) u)) (rev ts)) /\ In c l) \/ In c [r]) \/ (exists l, In l (map (fun u => snd (step (refs_of s) u)) (rev ts)) /\ In c l)).
  { intros u Iu [H|H]; [left; left|right]; eexists; (split; [apply in_map; apply -> in_rev; exact Iu|exact H]). }
  destruct I as [(l & I & H)|[<-|[]]].
  - apply in_map_iff in I as (u & <- & I). apply in_rev in I. apply (Lift u I). unfold step in *. destruct (refs_of s (root u) =? 1)%N; [|destruct H]. apply (IH u I (F u I) x c H Pc).
  - apply A1 in Pc. destruct Pc as (k' & G' & I). assert (k' = k) by congruence. subst k'. rewrite E in I. apply in_map_iff in I as (u & <- & I). apply (Lift u I). unfold step. destruct (refs_of s (root u) =? 1)%N; [|right; left; reflexivity]. left. destruct u as [ru tu]. rewrite kill_node. cbn [fst root]. apply in_or_app. right. left. reflexivity.
Qed.
Lemma step_closed s t : good s -> tree_at s t -> closed s (fst (step (refs_of s) t)) (snd (step (refs_of s) t)).
Proof. intros Gd T. unfold step. destruct (refs_of s (root t) =? 1)%N; [apply kill_closed; assumption|]. intros x c []. Qed.

(* The loop over the children *)
Definition each (f : nat) : st -> list nat -> outcome (st * list nat) := fix each s l := match l with [] => Ok (s, []) | c :: l => let! (s, tr1) := do_unref f s c true in let! (s, tr2) := each s l in Ok (s, tr1 ++ tr2) end.
Lemma do_unref_S f s r nested : do_unref (S f) s r nested =
    (let! k := the s r in
    let has_parent := match r_parent k with Some _ => true | None => false end in
    let! (s, destroy) :=
      if has_parent && (r_refs k =? 1)%N then Ok (s, true)
      else if negb has_parent && (r_refs k =? 0)%N then Ok (s, true)
      else if nested then let! s := remove_from_parent s r in Ok (s, false)
      else Ok (rset s r (Some (set_refs k (dec (r_refs k)))), (dec (r_refs k) =? 0)%N) in
    if destroy then let! (s, tr) := each f s (rev (r_children k)) in let! s := remove_from_parent s r in Ok (free s r, tr ++ [r]) else Ok (s, [])).
Proof. reflexivity. Qed.
Definition works (f : nat) (u : tree) : Prop := forall s p, good s -> tree_at s u -> parent_of s (root u) p -> do_unref f s (root u) true = Ok (take (fst (step (refs_of s) u)) (snd (step (refs_of s) u)) s, fst (step (refs_of s) u)).
Lemma take_refs dead det s x : ~ In x dead -> ~ In x det -> refs_of (take dead det s) x = refs_of s x.
Proof. intros N1 N2. unfold refs_of. rewrite take_get. destruct (mem_spec x dead); [contradiction|]. destruct (rget s x); [|reflexivity]. cbn [option_map detach r_refs]. destruct (mem_spec x det); [contradiction|reflexivity]. Qed.
Lemma take_nil s : take [] [] s = s.
Proof. apply st_ext; [apply take_length|]. intros x. rewrite take_get. destruct (mem_spec x []) as [[]|_]. destruct (rget s x) as [k|]; [|reflexivity]. cbn [option_map]. unfold detach. destruct (mem_spec x []) as [[]|_]. rewrite filter_all; [destruct k; reflexivity|]. intros c _. destruct (mem_spec c ([] ++ [])) as [[]|_]. reflexivity. Qed.
Lemma each_lemma f p : forall ts s, good s -> Forall (works f) ts -> Forall (tree_at s) ts -> Forall (fun u => parent_of s (root u) p) ts -> NoDup (List.concat (map flat ts)) ->
  each f s (map root ts) = Ok (take (List.concat (map (fun u => fst (step (refs_of s) u)) ts)) (List.concat (map (fun u => snd (step (refs_of s) u)) ts)) s, List.concat (map (fun u => fst (step (refs_of s) u)) ts)).
Proof.
  induction ts as [|u ts IH]; intros s Gd W T P D; [cbn [map each List.concat]; rewrite take_nil; reflexivity|].
  inversion W as [|? ? W1 W2]; subst. inversion T as [|? ? T1 T2]; subst. inversion P as [|? ? P1 P2]; subst. cbn [map List.concat] in D |- *. apply nodup_app_inv in D as (D1 & D2 & D3).
  cbn [each]. rewrite (W1 s p Gd T1 P1). cbn [obind]. set (d := fst (step (refs_of s) u)). set (e := snd (step (refs_of s) u)).
  assert (Out : forall v, In v ts -> forall x, In x (flat v) -> ~ In x d /\ ~ In x e).
  { intros v Iv x Ix. assert (N : ~ In x (flat u)) by (intros C; apply (D3 x C), in_concat; exists (flat v); split; [apply in_map, Iv|exact Ix]). split; intros C; apply N, (step_in (refs_of s)); auto. }
  assert (Same : forall v, In v ts -> step (refs_of (take d e s)) v = step (refs_of s) v) by (intros v Iv; apply step_ext; intros x Ix; apply take_refs; apply (Out v Iv x Ix)).
  rewrite Forall_forall in T2, P2.
  rewrite (IH (take d e s)); clear IH.
  - cbn [obind]. rewrite (map_ext_in (fun v => fst (step (refs_of (take d e s)) v)) (fun v => fst (step (refs_of s) v)) ts) by (intros v Iv; rewrite (Same v Iv); reflexivity). rewrite (map_ext_in (fun v => snd (step (refs_of (take d e s)) v)) (fun v => snd (step (refs_of s) v)) ts) by (intros v Iv; rewrite (Same v Iv); reflexivity).
    rewrite take_take; [reflexivity|]. intros x Ix C. apply in_concat in C as (l & Il & C). apply in_map_iff in Il as (v & <- & Iv). destruct (Out v Iv x); [apply (step_in (refs_of s)); auto|contradiction].
  - apply take_good; [exact Gd|apply step_closed; assumption].
  - exact W2.
  - apply Forall_forall. intros v Iv. apply take_tree; [apply T2, Iv|apply Out, Iv].
  - apply Forall_forall. intros v Iv. apply take_parent. split; [apply P2, Iv|]. apply (Out v Iv), root_flat.
  - exact D2.
Qed.
Lemma flat_rev ts : NoDup (List.concat (map flat ts)) -> NoDup (List.concat (map flat (rev ts))).
Proof.
  induction ts as [|t ts IH]; intros D; [exact D|]. cbn [map List.concat] in D. apply nodup_app_inv in D as (D1 & D2 & D3). cbn [rev]. rewrite map_app, concat_app. cbn [map List.concat]. rewrite app_nil_r. apply nodup_app; [apply IH, D2|exact D1|].
  intros x I J. apply (D3 x J). apply in_concat in I as (l & Il & I). apply in_concat. exists l. split; [|exact I]. rewrite map_rev in Il. apply in_rev in Il. exact Il.
Qed.
(* destroying the root of a tree *)
Definition destroyed (f : nat) (s : st) (k : rrec) (r : nat) : outcome (st * list nat) := let! (s, tr) := each f s (rev (r_children k)) in let! s := remove_from_parent s r in Ok (free s r, tr ++ [r]).
Lemma destroyed_lemma f s r ts k : good s -> tree_at s (Node r ts) -> rget s r = Some k -> Forall (works f) ts ->
  destroyed f s k r = Ok (take (fst (kill (refs_of s) (Node r ts))) (snd (kill (refs_of s) (Node r ts))) s, fst (kill (refs_of s) (Node r ts))).
Proof.
  intros Gd T G W. pose proof (flat_nodup _ Gd _ T) as D. cbn [flat] in D. inversion D as [|? ? D1 D2]; subst. pose proof (kill_closed _ _ Gd T) as Cl. inversion T as [r' k' ts' G' E F P]; subst. assert (k' = k) by congruence. subst k'. rewrite kill_node in *. cbn [fst snd] in *.
  unfold destroyed. rewrite E, <- map_rev. rewrite (each_lemma f r (rev ts) s Gd); [|apply Forall_rev, W|apply Forall_rev, F|apply Forall_rev, P|apply flat_rev, D2].
  cbn [obind]. set (d := List.concat (map (fun u => fst (step (refs_of s) u)) (rev ts))) in *. set (e := List.concat (map (fun u => snd (step (refs_of s) u)) (rev ts))) in *.
  assert (Sub : forall x, In x d \/ In x e -> In x (List.concat (map flat ts))).
  { unfold d, e. intros x H. rewrite !in_concat in H. assert (exists u, In u (rev ts) /\ (In x (fst (step (refs_of s) u)) \/ In x (snd (step (refs_of s) u)))) as (u & I & H'). { destruct H as [(l & I & H)|(l & I & H)]; apply in_map_iff in I as (u & <- & I); eauto. } apply in_rev in I. apply step_in in H'. apply in_concat. exists (flat u). split; [apply in_map, I|exact H']. }
  assert (N : ~ In r d /\ ~ In r e) by (split; intros C; apply D1, Sub; auto).
  assert (Gs : good (take d e s)).
  { apply take_good; [exact Gd|]. intros x c I Pc. destruct (Cl x c) as [H|H]; [apply in_or_app; left; exact I|exact Pc| |right; exact H]. apply in_app_or in H as [H|[<-|[]]]; [left; exact H|]. exfalso. apply D1. assert (Ix : In x (List.concat (map flat ts))) by (apply Sub; auto). apply in_concat in Ix as (l & Il & Ix). apply in_map_iff in Il as (u & <- & Iu). rewrite Forall_forall in F, P. apply (flat_above _ Gd _ (F u Iu)) in Ix. exfalso. apply (acyclic _ (g_rank _ Gd) _ _ (P u Iu)). eapply Ab_up; eassumption. }
  destruct (take_same_get d e s r k G (proj1 N) (proj2 N)) as (k1 & G1 & _). destruct (leave_lemma _ _ _ Gs G1) as (s1 & -> & E1). cbn [obind]. rewrite E1, take_take by (intros x _ []). rewrite app_nil_r. reflexivity.
Qed.
Lemma works_lemma : forall t f, depth t <= f -> works f t.
Proof.
  induction t as [r ts IH] using tree_ind'. intros f Df s p Gd T P. destruct f as [|f]; [cbn [depth] in Df; lia|]. cbn [root] in *. rewrite do_unref_S. pose proof P as (k & G & E). rewrite (the_get _ _ _ G). cbn [obind]. rewrite E. cbn [negb andb]. unfold step. cbn [root]. replace (refs_of s r) with (r_refs k) by (unfold refs_of; rewrite G; reflexivity).
  destruct (r_refs k =? 1)%N.
  - cbn [obind]. apply (destroyed_lemma f s r ts k Gd T G). rewrite Forall_forall in IH |- *. intros u I. apply IH; [exact I|]. cbn [depth] in Df. apply le_S_n in Df. etransitivity; [|exact Df]. clear - I. induction ts as [|t ts IH]; [destruct I|]. cbn [map list_max fold_right]. destruct I as [->|I]; [lia|]. specialize (IH I). unfold list_max in IH. lia.
  - rewrite (part_lemma _ _ _ Gd P). reflexivity.
Qed.
