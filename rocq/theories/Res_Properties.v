From Verif Require Import Base Res_Model Res_Spec Res_Proofs Res_Proofs2 Res_Proofs3 Res_Proofs4 Res_Proofs5 Res_Proofs6 Res_Proofs7 Res_Search Res_Proofs8.
Local Open Scope nat_scope.

(* The store a history leads to, and the calls of destroy functions *)
Fixpoint run (l : list rop) : outcome (st * list nat) := match l with [] => Ok ([], []) | o :: h => let! (s, all) := run h in let! (s, tr, _) := call s o in Ok (s, all ++ tr) end.
Definition store_of (l : list rop) : st := match run l with Ok (s, _) => s | UB => [] end.
Definition T (p : option nat) (f : N) (prio : Z) : rop := CreateBegin p 7 (Some (B "t")) (Some (B "x")) false f prio.
(* 0 has the children 2 (priority 0), 3 (priority 0) and 1 (priority 5); 4 is below 1 and somebody has a reference to it *)
Definition built : list rop := rev [T None 0 0; CreateOk 0; T (Some 0) 0 5; CreateOk 1; T (Some 0) 0 0; CreateOk 2; T (Some 0) 0 0; CreateOk 3; T (Some 1) 0 0; CreateOk 4; Ref 4].
Definition tree : st := Eval vm_compute in store_of built.
Ltac allowed := cbn [may T]; repeat match goal with |- _ /\ _ => split | |- live _ _ => vm_compute; discriminate | |- unfinished _ _ => vm_compute; eexists; split; reflexivity | |- (_ < _)%N => vm_compute; reflexivity | |- True => exact I end.
Ltac act H o := match type of H with ran ?h ?s ?all => let r := eval vm_compute in (call s o) in match r with Ok (?s', ?tr, ?z) =>
  let H' := fresh in assert (H' : ran (o :: h) s' (all ++ tr)) by (apply (N_call h s all o s' tr z H); [allowed|vm_compute; reflexivity]); clear H; rename H' into H; cbn [app] in H end end.
Ltac acts H l := match l with [] => idtac | ?o :: ?l => act H o; acts H l end.
Ltac history l := let H := fresh in pose proof N_start as H; let l' := eval cbv in (rev l) in acts H l'; exact H.
Lemma built_ran : ran built tree [].
Proof. history built. Qed.
Lemma built_reached : reached built tree.
Proof. exact (ran_reached _ _ _ built_ran). Qed.

(* C39.  Children by priority: in every history the children of every resource are in non-decreasing order; *)
Theorem children_by_priority : forall h s q, reached h s -> ordered s (children_of s q).
Proof. exact reached_ordered. Qed.
Print Assumptions children_by_priority.
Example children_by_priority_ex : children_of tree 0 = [2; 3; 1] /\ ordered tree [2; 3; 1].
Proof. split; [reflexivity|]. exact (children_by_priority built tree 0 built_reached). Qed.
(* one that is added, or whose priority is changed, is put behind all others of its priority; *)
Theorem child_put_behind_equals : forall h s o s' tr z q r, reached h s -> may h s o -> call s o = Ok (s', tr, z) ->
  (match o with CreateBegin p _ _ _ _ _ _ => p = Some q /\ r = length s | AddChild p c _ => p = q /\ c = r /\ z = 0%Z | SetPrio x pr => x = r /\ parent_of s r q /\ prio_of s r <> pr | _ => False end) ->
  In r (children_of s' q) /\ forall c, In c (children_of s' q) -> c <> r -> prio_of s' c = prio_of s' r -> behind (children_of s' q) c r.
Proof. exact put_last. Qed.
Print Assumptions child_put_behind_equals.
Example child_put_behind_equals_ex : may built tree (SetPrio 1 0) /\ children_of (store_of (SetPrio 1 0 :: built)) 0 = [2; 3; 1] /\ children_of (store_of (SetPrio 2 5 :: built)) 0 = [3; 1; 2] /\ children_of (store_of (T (Some 0) 0 0 :: built)) 0 = [2; 3; 5; 1].
Proof. split; [allowed|]. repeat split. Qed.
(* and no other call changes the order of two children that stay. *)
Theorem children_order_stable : forall h s o s' tr z q a b, reached h s -> may h s o -> call s o = Ok (s', tr, z) -> (forall pr, o <> SetPrio a pr) -> (forall pr, o <> SetPrio b pr) ->
  behind (children_of s q) a b -> In a (children_of s' q) -> In b (children_of s' q) -> behind (children_of s' q) a b.
Proof. exact order_kept. Qed.
Print Assumptions children_order_stable.
Example children_order_stable_ex : behind (children_of tree 0) 2 3 /\ children_of (store_of (SetPrio 1 (-1) :: built)) 0 = [1; 2; 3] /\ children_of (store_of (Isolate 1 0 :: built)) 0 = [2; 3; 4].
Proof. split; [exists [], [], [1]; reflexivity|repeat split]. Qed.
(* The priority of a resource that has no parent cannot be set: the call does nothing (src/resource/res.c:504), although the priority
   counts once the resource is added to another. *)
Theorem top_priority_ignored_refuted : forall s r k prio, rget s r = Some k -> r_parent k = None -> set_prio s r prio = Ok s.
Proof. intros s r k prio G P. unfold set_prio, the. rewrite G. cbn [obind]. rewrite P. destruct (prio =? r_prio k)%Z; reflexivity. Qed.
Print Assumptions top_priority_ignored_refuted.
Example top_priority_ignored_ex : prio_of (store_of [SetPrio 0 9; CreateOk 0; T None 0 0]) 0 = 0%Z.
Proof. reflexivity. Qed.

(* C40.  References: the count of a resource is the number of references taken and not dropped, one for its parent and one while it is
   being created; *)
Theorem reference_count : forall h s r k, reached h s -> rget s r = Some k -> r_refs k = (N.of_nat (held h r) + (match r_parent k with Some _ => 1 | None => 0 end) + (if r_init k then 0 else 1))%N.
Proof. exact reached_count. Qed.
Print Assumptions reference_count.
Example reference_count_ex : held built 4 = 1 /\ option_map r_refs (rget tree 4) = Some 2%N /\ option_map r_refs (rget tree 0) = Some 0%N.
Proof. repeat split. Qed.
(* no call a user may make accesses memory that is freed, and each does what it should (Res_Spec.effect), in particular: *)
Theorem calls_defined_partial : forall h s o, reached h s -> may h s o -> exists s' tr z, call s o = Ok (s', tr, z) /\ effect h s o s' tr z.
Proof. exact call_done. Qed.
Print Assumptions calls_defined_partial.
(* dropping the last reference destroys the resource and all below it that nobody else has a reference to, the children before the
   parent and the last child first; the others lose their parent; any other drop destroys nothing. *)
Theorem unref_destroys_partial : forall h s r s' tr z, reached h s -> may h s (Unref r) -> call s (Unref r) = Ok (s', tr, z) -> effect h s (Unref r) s' tr z.
Proof. intros h s r s' tr z. exact (call_effect h s (Unref r) s' tr z). Qed.
Print Assumptions unref_destroys_partial.
Example unref_destroys_ex : run (Unref 0 :: built) = Ok ([None; None; None; None; Some (Rrec None [] 7 (Some (B "t")) (B "t x") 0 0 1 true false)], [1; 3; 2; 0]) /\ may built tree (Unref 0) /\ held built 0 = 0
  /\ match run (Unref 4 :: Unref 0 :: built) with Ok (s, all) => all = [1; 3; 2; 0; 4] /\ s = repeat None 5 | UB => False end.
Proof. split; [reflexivity|]. split; [split; [vm_compute; discriminate|intros (k & E & H); vm_compute in E; injection E as <-; discriminate H]|]. split; [reflexivity|]. vm_compute. split; reflexivity. Qed.
(* Over a history: no resource is destroyed twice, what was destroyed is gone for good; *)
Theorem destroyed_once : forall h s all, ran h s all -> NoDup all /\ forall x, In x all -> x < length s /\ ~ live s x.
Proof. exact ran_once. Qed.
Print Assumptions destroyed_once.
(* what a call destroys existed, and no reference to it remains; what a call makes vanish was destroyed (or could not be created). *)
Theorem destroyed_unreferenced : forall h s o s' tr z, reached h s -> may h s o -> call s o = Ok (s', tr, z) ->
  length s <= length s' /\ NoDup tr /\ (forall x, In x tr -> live s x /\ ~ live s' x /\ held (o :: h) x = 0) /\ (forall x, x < length s -> ~ live s x -> ~ live s' x)
  /\ (forall x, live s x -> ~ live s' x -> In x tr \/ o = CreateFail x).
Proof. exact call_dead. Qed.
Print Assumptions destroyed_unreferenced.
Example destroyed_once_ex : exists s, ran (CreateOk 5 :: T None 0 0 :: Ref 2 :: built) s [] /\ length s = 6 /\ match call s (Unref 1) with Ok (s', tr, _) => tr = [1] /\ children_of s' 0 = [2; 3] /\ option_map r_parent (rget s' 4) = Some None | UB => False end.
Proof. eexists. split; [pose proof built_ran as H; unfold tree, built in H; cbn [rev app] in H; unfold built; cbn [rev app]; act H (Ref 2); act H (T None 0 0); act H (CreateOk 5); exact H|]. vm_compute. repeat split. Qed.
(* Refuted where users need not keep to `may'.  A resource whose init function fails is freed although a child of it is referenced by
   somebody: the child keeps the freed resource as its parent (src/resource/res.c:329-354), and using it is undefined. *)
Theorem failed_create_dangles_refuted : exists h s, run h = Ok (s, []) /\ ~ live s 0 /\ parent_of s 1 0 /\ unref s 1 = UB.
Proof. exists [CreateFail 0; Ref 1; CreateOk 1; T (Some 0) 0 0; T None 0 0]. eexists. split; [vm_compute; reflexivity|]. split; [intros H; apply H; reflexivity|]. split; [eexists; split; reflexivity|reflexivity]. Qed.
Print Assumptions failed_create_dangles_refuted.
(* A resource that has no parent has no reference after its creation: whoever takes one and drops it, for example an iterator over it
   (src/resource/res.c:1260, 1321), destroys it. *)
Theorem borrowed_top_destroyed_refuted : exists s, run [CreateOk 0; T None 0 0] = Ok (s, []) /\ exists s' s'', ref s 0 = Ok s' /\ unref s' 0 = Ok (s'', [0]) /\ ~ live s'' 0.
Proof. eexists. split; [vm_compute; reflexivity|]. eexists. eexists. split; [reflexivity|]. split; [reflexivity|]. intros H. apply H. reflexivity. Qed.
Print Assumptions borrowed_top_destroyed_refuted.

(* C41.  A search gives the first that matches of those the method visits (Res_Spec.visits), in order, not going where it is restricted;
   no method visits two different lists. *)
Theorem search_gives_first_partial : forall h s start me type id, reached h s -> live s start -> readable s type id -> exists l f, visits s true me start l /\ search s start me type id = Ok f /\ first_match (matches s type id) l f.
Proof. exact search_first. Qed.
Print Assumptions search_gives_first_partial.
Theorem visits_determined : forall s w me r l l', visits s w me r l -> visits s w me r l' -> l = l'.
Proof. exact visits_fun. Qed.
Print Assumptions visits_determined.
(* 0 has the children 1 (type 7, id a), 2 (type 8, id b, restricted) and 3 (type 8, no short name); 4 (type 8, id b) below 1, 5 (type 8,
   id b) below 2 *)
Definition N0 (p : option nat) (t : nat) (short : option bytes) (id : option bytes) (f : N) : rop := CreateBegin p t short id false f 0.
Definition searched : list rop := rev [N0 None 7 (Some (B "t")) (Some (B "r")) 0; CreateOk 0; N0 (Some 0) 7 (Some (B "t")) (Some (B "a")) 0; CreateOk 1; N0 (Some 0) 8 (Some (B "u")) (Some (B "b")) 2; CreateOk 2; N0 (Some 0) 8 None (Some (B "b")) 0; CreateOk 3; N0 (Some 1) 8 (Some (B "u")) (Some (B "b")) 0; CreateOk 4; N0 (Some 2) 8 (Some (B "u")) (Some (B "b")) 1; CreateOk 5].
Definition wood : st := Eval vm_compute in store_of searched.
Lemma searched_ran : ran searched wood [].
Proof. history searched. Qed.
Lemma searched_reached : reached searched wood.
Proof. exact (ran_reached _ _ _ searched_ran). Qed.
Lemma wood_readable : readable wood (Some 8) (Some (B "b")).
Proof. intros _ x k G Ty. destruct x as [|[|[|[|[|[|x]]]]]]; [| | | | | |destruct x; discriminate G]; vm_compute in G; injection G as <-; try discriminate Ty; [exists (B "b")|exists (B " b")|exists (B "b")|exists (B "b")]; reflexivity. Qed.
Example search_ex : live wood 0 /\ readable wood (Some 8) (Some (B "b")) /\ search wood 0 DFS (Some 8) (Some (B "b")) = Ok (Some 4) /\ search wood 0 IMM_DESC (Some 8) (Some (B "b")) = Ok None /\ search wood 0 IMM_DESC (Some 8) (Some (B " b")) = Ok (Some 3)
  /\ search wood 0 WIDE_DFS (Some 8) None = Ok (Some 3) /\ search wood 5 ANC (Some 7) None = Ok None /\ search wood 4 TOP None None = Ok (Some 0) /\ search wood 1 SIB None None = Ok (Some 3) /\ search wood 1 GENUS (Some 7) None = Ok (Some 1).
Proof. split; [vm_compute; discriminate|]. split; [exact wood_readable|]. repeat split. Qed.
(* The two that only ask whether there is one heed no restriction. *)
Theorem search_match_exists : forall h s start me type id, reached h s -> live s start -> readable s type id -> exists l b, visits s false me start l /\ search_match s start me type id = Ok b /\ (b = true <-> exists x, In x l /\ matches s type id x).
Proof. exact search_match_first. Qed.
Print Assumptions search_match_exists.
Theorem search_res_exists_partial : forall h s start me r, reached h s -> live s start -> live s r -> me <> GENUS -> me <> SIB -> exists l b, visits s false me start l /\ search_match_res s start me r = Ok b /\ (b = true <-> In r l).
Proof. exact search_res_first. Qed.
Print Assumptions search_res_exists_partial.
Example search_match_ex : search_match wood 0 IMM_DESC (Some 8) (Some (B "b")) = Ok true /\ search_match_res wood 0 DFS 5 = Ok true /\ search_match_res wood 1 DFS 5 = Ok false /\ search_match_res wood 5 ANC 0 = Ok true.
Proof. repeat split. Qed.
(* Refuted: whether a given resource is among the relatives or the siblings is always denied, because the resource itself is asked for
   already on the way up (src/resource/res.c:1117, 1124). *)
Theorem search_res_genus_sibling_refuted : forall h s start r me, reached h s -> live s start -> me = GENUS \/ me = SIB -> search_match_res s start me r = Ok false.
Proof. exact match_res_never'. Qed.
Print Assumptions search_res_genus_sibling_refuted.
Example search_res_genus_sibling_ex : search wood 1 SIB (Some 8) None = Ok (Some 3) /\ search_match_res wood 1 SIB 3 = Ok false.
Proof. split; reflexivity. Qed.
(* Refuted: a search in width goes below resources that must not be walked to (src/resource/res.c:1067-1072 tests nothing); a search in depth
   does not. *)
Definition hidden : list rop := rev [N0 None 7 (Some (B "t")) (Some (B "r")) 0; CreateOk 0; N0 (Some 0) 7 (Some (B "t")) (Some (B "a")) 2; CreateOk 1; N0 (Some 1) 8 (Some (B "u")) (Some (B "b")) 0; CreateOk 2].
Definition hidden_wood : st := Eval vm_compute in store_of hidden.
Lemma hidden_ran : ran hidden hidden_wood [].
Proof. history hidden. Qed.
Theorem wide_search_ignores_restriction_refuted : exists s k, reached hidden s /\ search s 0 WIDE_DFS (Some 8) None = Ok (Some 2) /\ parent_of s 2 1 /\ parent_of s 1 0 /\ rget s 1 = Some k /\ N.testbit (r_flags k) BIT_RESTRICT_DOWN = true
  /\ search s 0 DFS (Some 8) None = Ok None.
Proof. exists hidden_wood. eexists. split; [exact (ran_reached _ _ _ hidden_ran)|]. split; [reflexivity|]. split; [eexists; split; reflexivity|]. split; [eexists; split; reflexivity|]. split; [reflexivity|]. split; reflexivity. Qed.
Print Assumptions wide_search_ignores_restriction_refuted.
(* Iterating: after a reset the calls give the children that may be walked to in order, then nothing; backwards likewise. *)
Theorem iteration_gives_children : forall h s r n, reached h s -> live s r -> exists i, iter_reset s r = Ok i
  /\ take_next n s i = Ok (firstn n (map Some (filter (shown s true) (children_of s r)) ++ repeat None n))
  /\ take_previous n s i = Ok (firstn n (map Some (filter (shown s true) (rev (children_of s r))) ++ repeat None n)).
Proof. exact iterate. Qed.
Print Assumptions iteration_gives_children.
Example iteration_ex : match iter_reset wood 0 with Ok i => take_next 4 wood i = Ok [Some 1; Some 3; None; None] /\ take_previous 3 wood i = Ok [Some 3; Some 1; None] | UB => False end.
Proof. split; reflexivity. Qed.
(* Refuted: a step back after steps forward does not go back, it gives the last child. *)
Theorem iteration_back_refuted : exists i i1 i2 i3, iter_reset wood 0 = Ok i /\ iter_next 9 wood i = Ok (i1, Some 1) /\ iter_next 9 wood i1 = Ok (i2, Some 3) /\ iter_previous 9 wood i2 = Ok (i3, Some 3).
Proof. do 4 eexists. repeat split; reflexivity. Qed.
Print Assumptions iteration_back_refuted.
(* Refuted: asking for the id of a resource that has none but a type with a short name reads behind the end of its memory. *)
Theorem id_missing_refuted : forall s r k n i, rget s r = Some k -> r_short k = Some n -> r_id k = make_id (Some n) None -> res_match s r None (Some i) MNone = UB.
Proof. intros s r k n i G S E. unfold res_match, the. rewrite G. cbn [obind]. unfold get_id. rewrite S, E. unfold make_id. rewrite app_nil_r. replace (length n <? length n + 1) with true by (symmetry; apply Nat.ltb_lt; lia). reflexivity. Qed.
Print Assumptions id_missing_refuted.

(* C42.  The resources form a forest. *)
Theorem always_a_forest : forall h s, reached h s -> forest s.
Proof. exact reached_forest. Qed.
Print Assumptions always_a_forest.
Example always_a_forest_ex : forest tree /\ forest wood.
Proof. split; [exact (always_a_forest _ _ built_reached)|exact (always_a_forest _ _ searched_reached)]. Qed.
(* Isolating detaches the resource with what is below it, or alone, its children going to its parent in order (Res_Spec.effect). *)
Theorem isolate_detaches : forall h s r flags s' tr z, reached h s -> may h s (Isolate r flags) -> call s (Isolate r flags) = Ok (s', tr, z) -> effect h s (Isolate r flags) s' tr z.
Proof. intros h s r flags s' tr z. exact (call_effect h s (Isolate r flags) s' tr z). Qed.
Print Assumptions isolate_detaches.
Example isolate_ex : may built tree (Isolate 1 0) /\ match call tree (Isolate 1 0), call tree (Isolate 1 1) with
  | Ok (s1, _, z1), Ok (s2, _, z2) => z1 = 0%Z /\ z2 = 0%Z /\ children_of s1 0 = [2; 3; 4] /\ children_of s1 1 = [] /\ children_of s2 0 = [2; 3] /\ children_of s2 1 = [4] /\ option_map r_refs (rget s1 1) = Some 0%N
  | _, _ => False end /\ match call tree (Isolate 0 0) with Ok (_, _, z) => z = (- EPERM)%Z | UB => False end.
Proof. split; [vm_compute; discriminate|]. vm_compute. repeat split. Qed.
(* Adding a child, and creating below a parent, changes nothing else. *)
Theorem add_child_attaches_partial : forall h s r c flags s' tr z, reached h s -> may h s (AddChild r c flags) -> call s (AddChild r c flags) = Ok (s', tr, z) -> effect h s (AddChild r c flags) s' tr z.
Proof. intros h s r c flags s' tr z. exact (call_effect h s (AddChild r c flags) s' tr z). Qed.
Print Assumptions add_child_attaches_partial.
Example add_child_ex : exists h s, ran h s [] /\ ~ above s 5 1 /\ live s 5 /\ match call s (AddChild 1 5 0) with Ok (s', _, z) => z = 0%Z /\ children_of s' 1 = [4; 5] | UB => False end /\ match call s (AddChild 1 2 0) with Ok (s', _, z) => z = (- EBUSY)%Z /\ s' = s | UB => False end.
Proof.
  do 2 eexists. split; [pose proof built_ran as H; unfold tree, built in H; cbn [rev app] in H; act H (T None 0 3); act H (CreateOk 5); exact H|]. split; [|vm_compute; split; [discriminate|repeat split]].
  intros A. inversion A as [|c p (k & E & P) A']; subst. vm_compute in E. injection E as <-. injection P as <-. inversion A' as [|c p (k & E & P) A'']; subst. vm_compute in E. injection E as <-. discriminate P.
Qed.
(* Refuted without the condition: a resource is added below one of its own descendants without complaint, a cycle. *)
Theorem add_child_cycle_refuted : exists s s', reached built s /\ call s (AddChild 4 0 0) = Ok (s', [], 0%Z) /\ parent_of s' 0 4 /\ above s' 0 4.
Proof.
  exists tree. eexists. split; [exact built_reached|]. split; [vm_compute; reflexivity|]. split; [eexists; split; reflexivity|]. apply Ab_up with 1; [eexists; split; reflexivity|]. apply Ab_up with 0; [eexists; split; reflexivity|]. constructor.
Qed.
Print Assumptions add_child_cycle_refuted.
