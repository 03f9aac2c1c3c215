From Verif Require Import Base RunProg_Model.
Local Open Scope Z_scope.

(* A control for programs as _init_worker_control leaves it *)
Definition usable (c : ctl) : Prop := v_external c = true /\ v_specs c = true /\ v_prepared c = false.
(* A child gets as far as to the channels of the program *)
Definition starts (a : answers) : Prop :=
  k_memory a = true /\ k_channels a = true /\ k_signals a = true /\ k_fork a = true /\ k_parent a = true /\ k_close a = true /\ k_vectors a = true.
(* From there on nothing fails *)
Definition executes (a : answers) : Prop := 0 <= k_setup a /\ (forall r, k_init a = Some r -> 0 <= r) /\ k_exec a = true.
