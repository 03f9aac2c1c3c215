(* Specification of a bitmap: a predicate on positions. *)
From Verif Require Import Base Bmp_Model.
Local Open Scope N_scope.

(* State after a history: membership of each position, starting from "all [init]". *)
Fixpoint bits_after (init : bool) (ops_rev : list bmp_op) (p : N) : bool :=
  match ops_rev with
  | [] => init
  | BSet q :: t => if p =? q then true else bits_after init t p
  | BUnset q :: t => if p =? q then false else bits_after init t p
  end.

(* Number of positions below [n] satisfying [s]. *)
Definition count_below (n : N) (s : N -> bool) : N :=
  N.of_nat (List.length (List.filter (fun i => s (N.of_nat i)) (List.seq 0 (N.to_nat n)))).

Definition op_pos (o : bmp_op) : N := match o with BSet p => p | BUnset p => p end.
