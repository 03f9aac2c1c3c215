From Verif Require Import Base BaseUtil_Model Daemon_Model Daemon_Spec Daemon_Proofs.
Local Open Scope Z_scope.

(* All goes well: a daemon with VERBOSE unset, the loop is ended by a signal *)
Definition well : answers := Answers None 0 true 0 100 0 true 0 true 0 true 0.
(* The same with one answer changed: in a worker; the worker control is missing; no top resource; no session; the loop fails *)
Definition in_worker (control : bool) (r : Z) : answers := Answers None 0 true 0 100 0 true 0 true (-10) control r.
Definition no_top : answers := Answers None 0 true 0 100 0 true 0 false 0 true 0.
Definition no_session : answers := Answers None 0 true 0 (-1) 0 true 0 true 0 true 0.
Definition loop_fails : answers := Answers None 0 true 0 100 0 true 0 true (-12) true 0.
Definition with_verbose (b : bytes) : answers := Answers (Some b) 0 true 0 100 0 true 0 true 0 true 0.

(* C132 *)
Theorem first_option_decides : forall pre x post s, forallb plain pre = true -> plain x = false ->
  main (pre ++ x :: post) s = match x with O_help => ([E_help false], 0) | O_version => ([E_version], 0) | _ => ([E_help true], 22) end.
Proof. exact main_ends. Qed.
Print Assumptions first_option_decides.
Theorem log_settings : forall l s t v, In (E_log t v) (fst (main l s)) ->
  forallb plain l = true /\ v = match env_get_ull (s_verbose s) 0 2147483647 with (0, Some v) => Z.of_N v | _ => Z.of_nat (count is_v l) end
  /\ (t = T_journal <-> In O_journal l) /\ (t = T_standard <-> In O_foreground l /\ ~ In O_journal l).
Proof. exact settings. Qed.
Print Assumptions log_settings.
(* An empty VERBOSE is read as 0 and takes the options back *)
Example options_case :
  main [O_verbose; O_version; O_help] well = ([E_version], 0) /\ main [O_journal; O_other; O_help] well = ([E_help true], 22)
  /\ main [O_verbose; O_foreground; O_verbose] well = ([E_log T_standard 2; E_top_made; E_loop; E_top_destroyed], 0)
  /\ main [O_verbose] (with_verbose (B "7")) = ([E_log T_syslog 7; E_session true; E_daemon; E_top_made; E_loop; E_top_destroyed], 0)
  /\ fst (main [O_verbose; O_foreground; O_journal] (with_verbose (B "x"))) = [E_log T_journal 1; E_top_made; E_loop; E_top_destroyed]
  /\ fst (main [O_verbose; O_foreground] (with_verbose (B ""))) = [E_log T_standard 0; E_top_made; E_loop; E_top_destroyed].
Proof. vm_compute. repeat split. Qed.
Theorem top_resource_freed : forall l s, count event_made (fst (main l s)) = count event_destroyed (fst (main l s)).
Proof. exact top_once. Qed.
Print Assumptions top_resource_freed.
Theorem status_of_the_loop : forall l s, In E_loop (fst (main l s)) -> (snd (main l s) = 0 <-> ended_well s).
Proof. exact exit_status. Qed.
Print Assumptions status_of_the_loop.
Theorem success_is_earned : forall l s, s_create s = true -> snd (main l s) = 0 ->
  (In E_loop (fst (main l s)) /\ ended_well s) \/ In E_forked (fst (main l s)) \/ In (E_help false) (fst (main l s)) \/ In E_version (fst (main l s)).
Proof. exact success_means. Qed.
Print Assumptions success_is_earned.
Example status_case :
  main [] (in_worker true 0) = ([E_log T_syslog 0; E_session true; E_daemon; E_top_made; E_loop; E_worker; E_top_destroyed], 0)
  /\ snd (main [] (in_worker true (-5))) = 1 /\ snd (main [] (in_worker false 0)) = 1 /\ snd (main [] loop_fails) = 1
  /\ ended_well (in_worker true 0) /\ ~ ended_well loop_fails
  /\ main [] (Answers None 0 true 55 100 0 true 0 true 0 true 0) = ([E_log T_syslog 0; E_forked], 0).
Proof.
  repeat match goal with |- _ /\ _ => split end; try (vm_compute; reflexivity).
  - right. vm_compute. repeat split; congruence.
  - intros [X|(X & _)]; vm_compute in X; congruence.
Qed.
(* A failure to make the top resource is success: nothing was served and the exit status is 0 *)
Theorem no_top_resource_refuted : forall l s, forallb plain l = true -> goes_on l s -> 0 <= s_atexit s -> s_log s = true -> 0 <= s_atfork s ->
  s_create s = false -> snd (main l s) = 0 /\ ~ In E_loop (fst (main l s)) /\ count event_made (fst (main l s)) = 0%nat.
Proof. exact create_fails. Qed.
Print Assumptions no_top_resource_refuted.
(* setsid tells failure by -1, which is not noticed *)
Theorem new_session_refuted : forall l s, forallb plain l = true -> ~ In O_foreground l -> 0 <= s_atexit s -> s_log s = true -> becomes_daemon s ->
  s_setsid s = -1 -> In (E_session false) (fst (main l s)) /\ In E_daemon (fst (main l s)).
Proof. exact session_fails. Qed.
Print Assumptions new_session_refuted.
Example start_case : forallb plain [O_verbose; O_journal] = true /\ goes_on [O_journal] no_top /\ becomes_daemon no_session
  /\ main [O_journal] no_top = ([E_log T_journal 0; E_session true; E_daemon], 0)
  /\ main [] no_session = ([E_log T_syslog 0; E_session false; E_daemon; E_top_made; E_loop; E_top_destroyed], 0).
Proof.
  repeat match goal with |- _ /\ _ => split end; try (vm_compute; reflexivity).
  - right. vm_compute. repeat split; congruence.
  - vm_compute. repeat split; congruence.
Qed.
Theorem signals_and_loop : forall bridge l n, fold_left (on_signal bridge) l (Loop false n)
  = Loop (existsb ends l) (n + if bridge then count (N.eqb 10) (before_end l) else 0%nat).
Proof. intros bridge l n. exact (signals_are bridge l (Loop false n) eq_refl). Qed.
Print Assumptions signals_and_loop.
Example signals_case : fold_left (on_signal true) [1; 10; 13; 12; 10; 15; 10]%N (Loop false 0) = Loop true 2
  /\ fold_left (on_signal true) [1; 10; 13; 9]%N (Loop false 0) = Loop false 1 /\ fold_left (on_signal false) [10; 2]%N (Loop false 0) = Loop true 0.
Proof. vm_compute. repeat split. Qed.
