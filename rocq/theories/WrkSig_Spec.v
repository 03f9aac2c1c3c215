From Verif Require Import Base WrkSig_Model.
Local Open Scope N_scope.

Definition over (x : place) : Prop := x = P_exited \/ x = P_killed.
Definition starting (x : place) : Prop := x = P_forked \/ x = P_asked.
(* The next steps of the worker with nothing else happening *)
Definition steps (n : nat) : list act := repeat A_step n.
