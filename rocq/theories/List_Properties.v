From Verif Require Import Base List_Model List_Spec List_Proofs.
Local Open Scope nat_scope.

(* C73 *)
(* After any history of proper calls, on any number of lists, every list is walked forwards in the order of insertion and
   backwards in reverse, and its size is the number of its members *)
Theorem list_history : forall os s, calls no_lists os s -> exists m, run (fun _ => None) os = Ok m /\ forall h l, members s h = Some l ->
  list_is_empty m h = Ok (match l with [] => true | _ => false end)
  /\ (forall fuel, length l < fuel -> iterate fuel m h = Ok (Some l) /\ iterate_back fuel m h = Ok (Some (rev l)) /\ ((N.of_nat (length l) < 2 ^ 32)%N -> list_get_size fuel m h = Ok (Some (N.of_nat (length l))))).
Proof. exact history_lemma. Qed.
Print Assumptions list_history.
(* A member deleted twice breaks the list, as a deletion leaves its pointers: the empty list shows a deleted member when walked backwards *)
Definition ex_start : list op := [New 0 (7, 7); Init 0; New 1 (0, 0); Add 0 1; New 2 (0, 0); Add 0 2].
Theorem delete_twice_refuted : exists m, run (fun _ => None) (ex_start ++ [Del 2; Del 1; Del 2]) = Ok m /\ iterate 9 m 0 = Ok (Some []) /\ iterate_back 9 m 0 = Ok (Some [1]).
Proof. eexists. split; [reflexivity|]. split; reflexivity. Qed.
Print Assumptions delete_twice_refuted.
(* So does adding a member of one list to another: the first list's walk leads into the second one and never ends *)
Theorem add_twice_refuted : exists m, run (fun _ => None) (ex_start ++ [New 5 (0, 0); Init 5; Add 5 1]) = Ok m /\ iterate 9 m 5 = Ok (Some [1]) /\ forall fuel l, iterate fuel m 0 <> Ok (Some l).
Proof.
  eexists. split; [reflexivity|]. split; [reflexivity|].
  assert (X : forall (m : mem), next m 1 = Ok 5 -> next m 5 = Ok 1 -> forall fuel l, walk next fuel m 1 0 <> Ok (Some l) /\ walk next fuel m 5 0 <> Ok (Some l)).
  { intros m A B. induction fuel as [|fuel IH]; intros l; [split; discriminate|]. cbn [walk Nat.eqb]. rewrite A, B. cbn [obind]. split.
    - destruct (walk next fuel m 5 0) as [[w|]|] eqn:E; try discriminate. exact (fun _ => proj2 (IH w) eq_refl).
    - destruct (walk next fuel m 1 0) as [[w|]|] eqn:E; try discriminate. exact (fun _ => proj1 (IH w) eq_refl). }
  intros fuel l. unfold iterate. match goal with |- obind (next ?m 0) _ <> _ => exact (proj1 (X m eq_refl eq_refl fuel l)) end.
Qed.
Print Assumptions add_twice_refuted.
Ltac free_tac := unfold free_place; cbn; intros h0 l0; unfold set_members, no_lists; cbn; repeat (destruct (Nat.eqb _ _); [intros [= <-]; cbn; lia|]); discriminate.
Example ex_calls : exists s, calls no_lists (ex_start ++ [New 3 (9, 9); Add 0 3; Del 2; Add 0 2; New 4 (1, 2); Init 4]) s /\ members s 0 = Some [1; 3; 2] /\ members s 4 = Some [].
Proof.
  unfold ex_start. cbn [app]. eexists. split.
  - econstructor; [apply C_new; cbn; tauto|]. econstructor; [apply C_init; [cbn; auto|free_tac|auto]|]. econstructor; [apply C_new; cbn; intuition lia|].
    econstructor; [eapply C_add; [reflexivity|cbn; auto|free_tac|reflexivity]|]. econstructor; [apply C_new; cbn; intuition lia|].
    econstructor; [eapply C_add; [reflexivity|cbn; auto|free_tac|reflexivity]|]. econstructor; [apply C_new; cbn; intuition lia|].
    econstructor; [eapply C_add; [reflexivity|cbn; auto|free_tac|reflexivity]|]. cbn [app].
    econstructor; [apply (C_del _ 0 [1] 2 [3]); reflexivity|]. econstructor; [eapply C_add; [reflexivity|cbn; auto|free_tac|reflexivity]|]. econstructor; [apply C_new; cbn; intuition lia|].
    econstructor; [apply C_init; [cbn; auto|free_tac|auto]|]. constructor.
  - split; reflexivity.
Qed.
