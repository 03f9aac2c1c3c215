From Verif Require Import Base RunProg_Model RunProg_Spec RunProg_Proofs.
Local Open Scope Z_scope.

(* The runner of the lvm module has two channels.  All goes well; the program cannot be executed; the environment cannot be made a vector *)
Definition runner : ctl := Ctl true true 2 false.
Definition runs : answers := Answers true true true true true 0 true true true 0 None true.
Definition missing : answers := Answers true true true true true 0 true true true 0 None false.
Definition no_vectors : answers := Answers true true true true true 0 true true false 0 None true.

(* C134 *)
Theorem program_result : forall c a, usable c -> exists y, run_new_worker c a
  = Ok (Returned c (if k_memory a && k_channels a && k_signals a && k_fork a && k_proxy a then k_loop a else -1), y)
  /\ (y = None <-> k_memory a && k_channels a && k_signals a && k_fork a = false).
Proof. exact caller_is. Qed.
Print Assumptions program_result.
Theorem one_process_returns : forall l p c, usable c -> (forall f q, In f l -> executes (f q)) -> run_all l p c = Ok [(p ++ repeat false (length l), c)].
Proof. exact one_left. Qed.
Print Assumptions one_process_returns.
Example program_case : usable runner /\ executes runs /\ executes no_vectors /\ run_new_worker runner runs = Ok (Returned runner 0, Some Program)
  /\ run_new_worker runner no_vectors = Ok (Returned runner 0, Some Ended) /\ run_all [fun _ => runs; fun _ => no_vectors; fun _ => runs] [] runner = Ok [([false; false; false], runner)].
Proof. repeat split; try reflexivity; cbn; try lia; discriminate. Qed.
(* If the program cannot be executed, the call returns in the child too: two processes go on with the scan *)
Theorem program_missing_refuted : forall c a, usable c -> starts a -> ~ executes a ->
  exists r r', run_new_worker c a = Ok (Returned c r, Some (Returned (Ctl true false (v_count c) false) r')) /\ r' < 0.
Proof. exact two_back. Qed.
Print Assumptions program_missing_refuted.
Theorem two_processes_refuted : forall c f, usable c -> starts (f []) -> ~ executes (f []) -> exists c', run_all [f] [] c = Ok [([false], c); ([true], c')].
Proof. exact two_left. Qed.
Print Assumptions two_processes_refuted.
(* and the next program of the child reads channel specs through NULL *)
Theorem next_program_refuted : forall c f g n, usable c -> v_count c = S n -> starts (f []) -> ~ executes (f []) -> k_memory (g [true]) = true ->
  run_all [f; g] [] c = UB.
Proof. exact then_ub. Qed.
Print Assumptions next_program_refuted.
Example missing_case : starts missing /\ ~ executes missing /\ run_new_worker runner missing = Ok (Returned runner 0, Some (Returned (Ctl true false 2 false) (-1)))
  /\ run_all [fun _ => missing; fun _ => runs] [] runner = UB.
Proof. repeat split; try reflexivity. intros (_ & _ & X). discriminate. Qed.
