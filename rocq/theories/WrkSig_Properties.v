From Verif Require Import Base WrkSig_Model WrkSig_Spec WrkSig_Proofs.
Local Open Scope N_scope.

Definition internal : setting := Setting Internal true true.
Definition external : setting := Setting External true true.

(* C133 *)
Theorem mask_restored : forall m s, c_restore s = true -> forall n, fst (make_worker m s) n = m n.
Proof. exact mask_kept. Qed.
Print Assumptions mask_restored.
Theorem worker_made : forall m s, snd (make_worker m s) = 0%Z
  <-> c_channels s = true /\ c_fillset s = true /\ c_block s = true /\ (0 <= c_fork s)%Z /\ c_proxy s = true.
Proof. exact made_is. Qed.
Print Assumptions worker_made.
Example mask_case : snd (make_worker (fun n => n =? 17) (Answers true true true 55 true true)) = 0%Z
  /\ fst (make_worker (fun n => n =? 17) (Answers true true true (-1) true true)) 15 = false
  /\ fst (make_worker (fun n => n =? 17) (Answers true true true 55 true false)) 15 = true.
Proof. vm_compute. repeat split. Qed.
Theorem worker_killed : forall c l, (In (A_signal 9) l -> over (x_place (run c l))) /\ (~ In (A_signal 9) l -> x_place (run c l) <> P_killed).
Proof. intros c l. split; [apply kill_over | apply not_killed]. Qed.
Print Assumptions worker_killed.
Theorem worker_ended : forall c n l, n = 15 \/ n = 2 -> In (A_signal n) l -> x_place (run c l) = P_loop ->
  x_place (run c (l ++ steps (S (length (x_pending (run c l)))))) = P_exited.
Proof. exact ended_by. Qed.
Print Assumptions worker_ended.
Theorem parent_death_noticed : forall c l, c_prctl c = true -> x_place (run c l) = P_loop -> x_parent (run c l) = false ->
  let q := run c (l ++ steps (length (x_pending (run c l)))) in x_place q = P_exited \/ x_parent_exited q = true.
Proof. exact death_noticed. Qed.
Print Assumptions parent_death_noticed.
Theorem orphan_stops : forall c l1 l2, starting (x_place (run c l1)) -> x_parent (run c l1) = false ->
  starting (x_place (run c (l1 ++ l2))) \/ over (x_place (run c (l1 ++ l2))).
Proof. exact orphan. Qed.
Print Assumptions orphan_stops.
Example worker_signals_case :
  x_place (run internal [A_step; A_signal 15; A_step; A_step]) = P_loop
  /\ x_place (run internal [A_step; A_signal 15; A_step; A_step; A_step; A_step]) = P_exited
  /\ x_place (run internal [A_step; A_step; A_parent_dies; A_signal 12; A_step]) = P_loop
  /\ x_pending (run internal [A_step; A_step; A_parent_dies; A_signal 12; A_step]) = [10; 12]
  /\ x_parent_exited (run internal [A_step; A_step; A_parent_dies; A_signal 12; A_step; A_step]) = true
  /\ x_place (run internal [A_parent_dies; A_step; A_step; A_step]) = P_exited
  /\ x_place (run internal [A_step; A_parent_dies; A_step]) = P_exited
  /\ x_place (run internal [A_step; A_step; A_signal 9]) = P_killed.
Proof. vm_compute. repeat split. Qed.
(* All signals are blocked in the program of an external worker: it is not ended with its parent, which is what prctl asked for, nor by the
   signal of its timeout unless that is SIGKILL *)
Theorem program_outlives_refuted : forall c l1 l2, x_place (run c l1) = P_program -> ~ In (A_signal 9) l2 -> x_place (run c (l1 ++ l2)) = P_program.
Proof. exact outlives. Qed.
Print Assumptions program_outlives_refuted.
Theorem program_timeout : forall c l signum, x_place (run c l) = P_program ->
  x_place (run c (l ++ timeout signum)) = if signum =? 9 then P_killed else P_program.
Proof. exact timeouts. Qed.
Print Assumptions program_timeout.
Example program_case : x_place (run external [A_step; A_step; A_step]) = P_program
  /\ x_pending (run external [A_step; A_step; A_step; A_parent_dies]) = [15]
  /\ x_place (run external ([A_step; A_step; A_step; A_parent_dies] ++ timeout 15)) = P_program
  /\ x_place (run external ([A_step; A_step; A_step] ++ timeout 9)) = P_killed
  /\ x_place (run external [A_step; A_parent_dies; A_step; A_step]) = P_exited.
Proof. vm_compute. repeat split. Qed.
