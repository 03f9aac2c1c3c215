From Verif Require Import Base Res_Model Res_Spec Res_Proofs.
Local Open Scope nat_scope.

(* The tree below a resource *)
Inductive tree := Node (r : nat) (ts : list tree).
Fixpoint tree_ind' (P : tree -> Prop) (H : forall r ts, Forall P ts -> P (Node r ts)) (t : tree) : P t :=
  match t with Node r ts => H r ts ((fix go ts : Forall P ts := match ts with [] => Forall_nil P | t :: ts => Forall_cons t (tree_ind' P H t) (go ts) end) ts) end.
Definition root (t : tree) : nat := match t with Node r _ => r end.
Definition subs (t : tree) : list tree := match t with Node _ ts => ts end.
Fixpoint flat (t : tree) : list nat := match t with Node r ts => r :: List.concat (map flat ts) end.
Fixpoint depth (t : tree) : nat := match t with Node _ ts => S (list_max (map depth ts)) end.
Inductive tree_at (s : st) : tree -> Prop := TA r k ts : rget s r = Some k -> r_children k = map root ts -> Forall (tree_at s) ts -> Forall (fun t => parent_of s (root t) r) ts -> tree_at s (Node r ts).
Lemma flat_depth t : depth t <= length (flat t).
Proof.
  induction t as [r ts IH] using tree_ind'. cbn [depth flat length]. apply le_n_S. induction IH as [|t ts H _ IH]; [cbn; lia|]. cbn [map List.concat list_max fold_right]. rewrite app_length. unfold list_max in IH. lia.
Qed.
Lemma tree_root s t : tree_at s t -> exists k, rget s (root t) = Some k /\ r_children k = map root (subs t).
Proof. intros [r k ts G E _ _]. exists k. auto. Qed.
Lemma tree_exists s : good s -> forall r, live s r -> exists t, root t = r /\ tree_at s t.
Proof.
  intros [(A1 & A2 & A3) R O] r. induction (R r) as [r _ IH]. intros L. destruct (live_get _ _ L) as (k & G).
  assert (C : forall c, In c (r_children k) -> exists t, root t = c /\ tree_at s t).
  { intros c I. assert (P : parent_of s c r) by (apply A1; exists k; auto). apply IH; [exact P|]. destruct P as (kc & Gc & _). eapply get_live, Gc. }
  assert (P : forall c, In c (r_children k) -> parent_of s c r) by (intros c I; apply A1; exists k; auto).
  assert (exists ts, map root ts = r_children k /\ Forall (tree_at s) ts) as (ts & E & F).
  { clear - C. induction (r_children k) as [|c l IH]; [exists []; split; [reflexivity|constructor]|]. destruct (C c (or_introl eq_refl)) as (t & Er & T). destruct IH as (ts & E & F); [intros x I; apply C; right; exact I|]. exists (t :: ts). split; [cbn; congruence|constructor; assumption]. }
  exists (Node r ts). split; [reflexivity|]. econstructor; [exact G|symmetry; exact E|exact F|]. apply Forall_forall. intros t I. apply P. rewrite <- E. apply in_map, I.
Qed.
Lemma flat_in t x : In x (flat t) <-> x = root t \/ exists u, In u (subs t) /\ In x (flat u).
Proof. destruct t as [r ts]. cbn [flat root subs In]. rewrite in_concat. split; [intros [->|(l & I & H)]|intros [->|(u & I & H)]]; [left; reflexivity| |left; reflexivity|]. { apply in_map_iff in I as (u & <- & I). right. eauto. } right. exists (flat u). split; [apply in_map, I|exact H]. Qed.
Lemma root_flat t : In (root t) (flat t).
Proof. apply flat_in. auto. Qed.
Lemma flat_above s : good s -> forall t, tree_at s t -> forall x, In x (flat t) <-> above s (root t) x.
Proof.
  intros [(A1 & A2 & A3) R O] t. induction t as [r ts IH] using tree_ind'. intros T x. inversion T as [r' k ts' G E F P]; subst. cbn [root]. rewrite Forall_forall in IH, F, P. rewrite flat_in. cbn [root subs]. split.
  - intros [->|(u & I & H)]; [constructor|]. apply (IH u I (F u I)) in H. eapply above_trans; [|exact H]. eapply Ab_up; [exact (P u I)|constructor].
  - intros A. destruct (above_next _ _ _ A) as [->|(c & Pc & Ac)]; [left; reflexivity|]. right. apply A1 in Pc. destruct Pc as (k' & G' & I). assert (k' = k) by congruence. subst k'. rewrite E in I. apply in_map_iff in I as (u & <- & I). exists u. split; [exact I|]. apply IH; auto.
Qed.
Lemma nodup_app (a b : list nat) : NoDup a -> NoDup b -> (forall x, In x a -> ~ In x b) -> NoDup (a ++ b).
Proof. induction 1 as [|x a N H IH]; intros Hb D; [exact Hb|]. cbn [app]. constructor; [rewrite in_app_iff; intros [I|I]; [contradiction|exact (D x (or_introl eq_refl) I)]|]. apply IH; [exact Hb|intros y I; apply D; right; exact I]. Qed.
Lemma nodup_app_inv (a b : list nat) : NoDup (a ++ b) -> NoDup a /\ NoDup b /\ forall x, In x a -> ~ In x b.
Proof.
  induction a as [|x a IH]; cbn [app]; intros H; [split; [constructor|split; [exact H|intros ? []]]|]. inversion H as [|? ? N H']; subst. destruct (IH H') as (Ha & Hb & D). rewrite in_app_iff in N. split; [constructor; tauto|]. split; [exact Hb|]. intros y [<-|I]; [tauto|apply D, I].
Qed.
Lemma flat_nodup s : good s -> forall t, tree_at s t -> NoDup (flat t).
Proof.
  intros Gd t. induction t as [r ts IH] using tree_ind'. intros T. inversion T as [r' k ts' G E F P]; subst. destruct (g_agree _ Gd) as (A1 & A2 & A3). pose proof (g_rank _ Gd) as R. rewrite Forall_forall in IH, F, P.
  assert (ND : NoDup (map root ts)) by (rewrite <- E, <- (children_get _ _ _ G); apply A3).
  cbn [flat]. constructor.
  - rewrite in_concat. intros (l & I & H). apply in_map_iff in I as (u & <- & I). apply (flat_above _ Gd _ (F u I)) in H. exact (acyclic _ R _ _ (P u I) H).
  - clear T E. induction ts as [|t ts IHts]; [constructor|]. cbn [map List.concat]. inversion ND as [|? ? N1 N2]; subst. apply nodup_app; [apply IH; [left; reflexivity|apply F; left; reflexivity]|apply IHts; [intros; apply IH; [right|]; assumption|intros; apply F; right; assumption|intros; apply P; right; assumption|exact N2]|].
    intros x I J. apply in_concat in J as (l & Il & J). apply in_map_iff in Il as (u & <- & Iu). apply (flat_above _ Gd _ (F t (or_introl eq_refl))) in I. apply (flat_above _ Gd _ (F u (or_intror Iu))) in J.
    assert (Nu : root t <> root u) by (intros Eq; apply N1; rewrite Eq; apply in_map, Iu).
    assert (K : forall a b, parent_of s a r -> parent_of s b r -> a <> b -> ~ above s a b).
    { intros a b Pa Pb Nab A. inversion A as [|c q Pq Aq]; subst; [contradiction|]. rewrite (parent_fun _ _ _ _ Pq Pb) in Aq. exact (acyclic _ R _ _ Pa Aq). }
    destruct (above_line _ _ _ _ I J) as [A|A]; revert A; apply K; auto using in_eq, in_cons.
Qed.
Lemma tree_live s t : tree_at s t -> forall x, In x (flat t) -> live s x.
Proof. induction t as [r ts IH] using tree_ind'. intros T x I. inversion T as [r' k ts' G E F P]; subst. rewrite Forall_forall in IH, F. apply flat_in in I as [->|(u & Iu & I)]; [eapply get_live, G|]. eapply IH; eauto. Qed.
Lemma tree_depth s t : good s -> tree_at s t -> depth t < fuel_of s.
Proof.
  intros Gd T. unfold fuel_of. apply Nat.lt_succ_r. etransitivity; [apply flat_depth|]. rewrite <- (seq_length (length s) 0). apply NoDup_incl_length; [eapply flat_nodup; eassumption|].
  intros x I. apply (tree_live _ _ T) in I. apply live_get in I as (k & G). apply rget_lt in G. apply in_seq. lia.
Qed.

(* Taking resources out: dead ones and detached ones *)
Definition mem (x : nat) (l : list nat) : bool := if in_dec Nat.eq_dec x l then true else false.
Lemma mem_spec x l : reflect (In x l) (mem x l).
Proof. unfold mem. destruct (in_dec Nat.eq_dec x l); constructor; assumption. Qed.
Lemma mem_app x a b : mem x (a ++ b) = mem x a || mem x b.
Proof. destruct (mem_spec x (a ++ b)) as [H|H], (mem_spec x a), (mem_spec x b); rewrite in_app_iff in H; reflexivity || tauto. Qed.
Definition detach (dead det : list nat) (x : nat) (k : rrec) : rrec :=
  Rrec (if mem x det then None else r_parent k) (filter (fun c => negb (mem c (dead ++ det))) (r_children k)) (r_type k) (r_short k) (r_id k) (r_flags k) (r_prio k) (if mem x det then dec (r_refs k) else r_refs k) (r_init k) (r_loop k).
Definition take (dead det : list nat) (s : st) : st := map (fun x => if mem x dead then None else option_map (detach dead det x) (rget s x)) (seq 0 (length s)).
Lemma take_length dead det s : length (take dead det s) = length s.
Proof. unfold take. rewrite map_length, seq_length. reflexivity. Qed.
Lemma take_get dead det s x : rget (take dead det s) x = if mem x dead then None else option_map (detach dead det x) (rget s x).
Proof.
  destruct (Nat.lt_ge_cases x (length s)) as [L|L].
  - unfold rget at 1, take. set (f := fun x => if mem x dead then None else option_map (detach dead det x) (rget s x)). rewrite (nth_indep _ None (f 0)) by (rewrite map_length, seq_length; exact L). rewrite map_nth, seq_nth by exact L. reflexivity.
  - unfold rget. rewrite !nth_overflow by (rewrite ?take_length; exact L). destruct (mem x dead); reflexivity.
Qed.
Lemma filter_filter {A} (f g : A -> bool) l : filter f (filter g l) = filter (fun x => g x && f x) l.
Proof. induction l as [|x l IH]; [reflexivity|]. cbn [filter]. destruct (g x); cbn [filter andb]; [destruct (f x); congruence|exact IH]. Qed.
Lemma take_take d1 e1 d2 e2 s : (forall x, In x e1 -> ~ In x e2) -> take d2 e2 (take d1 e1 s) = take (d1 ++ d2) (e1 ++ e2) s.
Proof.
  intros D. apply st_ext; [rewrite !take_length; reflexivity|]. intros x. rewrite !take_get, mem_app. destruct (mem x d1); [cbn [orb]; destruct (mem x d2); reflexivity|]. cbn [orb]. destruct (mem x d2); [reflexivity|]. destruct (rget s x) as [k|]; [|reflexivity]. cbn [option_map]. f_equal. unfold detach. cbn [r_parent r_children r_type r_short r_id r_flags r_prio r_refs r_init r_loop]. rewrite !mem_app. f_equal.
  - destruct (mem x e1), (mem x e2); reflexivity.
  - rewrite filter_filter. apply filter_ext. intros c. rewrite !mem_app. destruct (mem c d1), (mem c e1), (mem c d2), (mem c e2); reflexivity.
  - destruct (mem_spec x e1) as [H1|], (mem_spec x e2) as [H2|]; try reflexivity. destruct (D x H1 H2).
Qed.
Lemma filter_all {A} (f : A -> bool) l : (forall x, In x l -> f x = true) -> filter f l = l.
Proof. induction l as [|x l IH]; intros H; [reflexivity|]. cbn [filter]. rewrite H by (left; reflexivity). f_equal. apply IH. intros y I. apply H. right. exact I. Qed.
Lemma filter_none {A} (f : A -> bool) l : (forall x, In x l -> f x = false) -> filter f l = [].
Proof. induction l as [|x l IH]; intros H; [reflexivity|]. cbn [filter]. rewrite H by (left; reflexivity). apply IH. intros y I. apply H. right. exact I. Qed.
(* consistent choice of what is taken *)
Definition closed (s : st) (dead det : list nat) : Prop := forall x c, In x dead -> parent_of s c x -> In c dead \/ In c det.
Lemma take_parent dead det s c p : parent_of (take dead det s) c p <-> parent_of s c p /\ ~ In c dead /\ ~ In c det.
Proof.
  unfold parent_of. rewrite take_get. destruct (mem_spec c dead) as [H|H]; [split; [intros (k & E & _); discriminate E|tauto]|]. destruct (rget s c) as [k|]; cbn [option_map]; [|split; [intros (k & E & _); discriminate E|intros [(k & E & _) _]; discriminate E]].
  split.
  - intros (k' & E & P). injection E as <-. cbn [detach r_parent] in P. destruct (mem_spec c det); [discriminate P|]. split; [exists k; auto|auto].
  - intros [(k' & E & P) [_ N]]. injection E as <-. eexists. split; [reflexivity|]. cbn [detach r_parent]. destruct (mem_spec c det); [contradiction|exact P].
Qed.
Lemma take_children dead det s p : children_of (take dead det s) p = if mem p dead then [] else filter (fun c => negb (mem c (dead ++ det))) (children_of s p).
Proof. unfold children_of. rewrite take_get. destruct (mem p dead); [reflexivity|]. destruct (rget s p); reflexivity. Qed.
Lemma ordered_filter s f l : ordered s l -> ordered s (filter f l).
Proof. induction l as [|c l IH]; intros H; [exact I|]. destruct H as [H1 H2]. cbn [filter]. destruct (f c); [|apply IH, H2]. split; [intros d Id; apply filter_In in Id as [Id _]; apply H1, Id|apply IH, H2]. Qed.
Lemma take_good dead det s : good s -> closed s dead det -> good (take dead det s).
Proof.
  intros [(A1 & A2 & A3) R O] C. constructor.
  - split; [|split].
    + intros p c. rewrite child_in, take_children, take_parent. destruct (mem_spec p dead) as [Hp|Hp].
      * split; [intros []|]. intros (P & N1 & N2). destruct (C _ _ Hp P); contradiction.
      * rewrite filter_In, negb_true_iff, <- child_in, A1. destruct (mem_spec c (dead ++ det)) as [H|H]; rewrite in_app_iff in H; split; [intros [_ H']; discriminate H'|tauto|tauto|tauto].
    + intros c p H. apply take_parent in H as (P & N1 & N2). pose proof (A2 _ _ P) as L. apply live_get in L as (k & G). unfold live. rewrite take_get. destruct (mem_spec p dead) as [Hp|Hp]; [destruct (C _ _ Hp P); contradiction|]. rewrite G. discriminate.
    + intros p. rewrite take_children. destruct (mem p dead); [constructor|]. apply NoDup_filter, A3.
  - apply (ranked_sub s); [|exact R]. intros c p H. apply take_parent in H as [H _]. exact H.
  - intros p. rewrite take_children. destruct (mem p dead); [exact I|]. assert (H : ordered s (filter (fun c => negb (mem c (dead ++ det))) (children_of s p))) by (apply ordered_filter, O). revert H. apply ordered_ext.
    intros x I. apply filter_In in I as [_ I]. apply negb_true_iff in I. rewrite mem_app in I. apply orb_false_iff in I as [I _]. unfold prio_of. rewrite take_get, I. destruct (rget s x); reflexivity.
Qed.
(* a tree none of whose members is taken stays as it is *)
Lemma take_tree dead det s t : tree_at s t -> (forall x, In x (flat t) -> ~ In x dead /\ ~ In x det) -> tree_at (take dead det s) t.
Proof.
  induction t as [r ts IH] using tree_ind'. intros T N. inversion T as [r' k ts' G E F P]; subst. rewrite Forall_forall in IH, F, P. destruct (N r (root_flat (Node r ts))) as [N1 N2].
  assert (Sub : forall u, In u ts -> forall x, In x (flat u) -> In x (flat (Node r ts))) by (intros u I x H; apply flat_in; right; cbn [subs]; eauto).
  apply (TA _ r (detach dead det r k) ts).
  - rewrite take_get. destruct (mem_spec r dead); [contradiction|]. rewrite G. reflexivity.
  - cbn [detach r_children]. rewrite E. apply filter_all. intros c I. apply in_map_iff in I as (u & <- & I). destruct (N (root u) (Sub u I _ (root_flat u))). destruct (mem_spec (root u) (dead ++ det)) as [H'|H']; [rewrite in_app_iff in H'; tauto|reflexivity].
  - apply Forall_forall. intros u I. apply IH; [exact I|apply F, I|]. intros x H. apply N. eapply Sub; eassumption.
  - apply Forall_forall. intros u I. apply take_parent. split; [apply P, I|]. apply N. eapply Sub; [exact I|apply root_flat].
Qed.
Lemma take_same_get dead det s x k : rget s x = Some k -> ~ In x dead -> ~ In x det -> exists k', rget (take dead det s) x = Some k' /\ r_parent k' = r_parent k /\ r_refs k' = r_refs k.
Proof. intros G N1 N2. exists (detach dead det x k). rewrite take_get. destruct (mem_spec x dead); [contradiction|]. rewrite G. split; [reflexivity|]. unfold detach. cbn [r_parent r_refs]. destruct (mem_spec x det); [contradiction|]. auto. Qed.
