From Verif Require Import Base UbrCmd_Model CmdMem_Model CmdMem_Spec CmdMem_Proofs.
Local Open Scope nat_scope.

Definition no_failure : istep -> bool := fun _ => false.
Definition fine : answers := Answers 0 0 3 0 0 0.
Definition quiet_effects : effects := Effects true true true true false.
Definition udev_effects : effects := Effects true true true true true.
(* a scan: first stage, acknowledgement, response, uevent, second stage, acknowledgement, end *)
Definition first_stage : list laction := [L_handler fine udev_effects; L_other (A_main true); L_other A_message; L_handler fine quiet_effects].
Definition whole_scan : list laction :=
  first_stage ++ [L_other A_udev; L_other A_message; L_handler fine quiet_effects; L_other (A_main true); L_other A_message; L_handler fine quiet_effects].
Definition whole_resources : list laction := [L_handler fine quiet_effects; L_other (A_main true); L_other A_message; L_handler fine quiet_effects].

(* C128: whatever fails and whatever happens, no memory of a command is freed twice or used after that, and what is left after the end
   is named; two cases are excepted *)
Theorem command_memory lg bad fields path l : In lg commands -> ~ (lg = lreg_self /\ path = true /\ late_failure bad) ->
  (lg = lreg_scan -> udev_in_first lg bad fields path l) ->
  exists left, life lg bad fields path l = Ok left /\ (forall p, In p left -> left_by lg fields p).
Proof. exact (life_lemma lg bad fields path l). Qed.
Print Assumptions command_memory.
Example command_memory_scan : life lreg_scan no_failure [F_ok; F_ok] false whole_scan = Ok [] /\
  (exists s m, history lreg_scan no_failure [F_ok; F_ok] false whole_scan s m /\ c_state (s_cmd s) = C_FIN /\ length (live m) = 5).
Proof. split; [reflexivity|]. eexists _, _. split; [eexists _, _; split; vm_compute; reflexivity|]. split; reflexivity. Qed.

(* commands other than scan and resources leave nothing, wherever they end *)
Theorem others_leave_nothing lg bad fields path l : In lg [lreg_checkpoint; lreg_plain; lreg_print; lreg_dbdump; lreg_self] -> ~ In F_not_set fields ->
  ~ (lg = lreg_self /\ path = true /\ late_failure bad) -> life lg bad fields path l = Ok [].
Proof. exact (others_lemma lg bad fields path l). Qed.
Print Assumptions others_leave_nothing.
Example others_case : (exists m c, init_command lreg_self no_failure [] true = Ok (m, Some c) /\ length (live m) = 4) /\
  (exists m, init_command lreg_self (fun x => match x with I_session | I_handler => true | _ => false end) [] false = Ok (m, None)) /\
  life lreg_self no_failure [] true [L_handler fine quiet_effects] = Ok [].
Proof. split; [eexists _, _; split; reflexivity|]. split; [eexists; reflexivity|reflexivity]. Qed.

(* a scan that went through both stages leaves nothing *)
Theorem finished_scan bad fields path l s m : udev_in_first lreg_scan bad fields path l -> history lreg_scan bad fields path l s m ->
  c_state (s_cmd s) = C_FIN -> ~ In F_not_set fields -> exists m', destroy_command lreg_scan m = Ok m' /\ live m' = [].
Proof. exact (scan_finished_lemma bad fields path l s m). Qed.
Print Assumptions finished_scan.

(* the path to export to is freed twice when the command cannot be scheduled *)
Theorem export_path_refuted bad fields l : late_failure bad -> life lreg_self bad fields true l = UB.
Proof. exact (double_free bad fields l). Qed.
Print Assumptions export_path_refuted.
Example late_case : late_failure (fun x => match x with I_handler => true | _ => false end).
Proof. split; [intros x; cbn; intuition (subst; reflexivity)|now left]. Qed.

(* a udev property written in the second stage is added to the response buffer that was destroyed with the first response *)
Theorem second_stage_udev_refuted bad fields path l s m a e : udev_in_first lreg_scan bad fields path l -> history lreg_scan bad fields path l s m ->
  c_state (s_cmd s) = C_EXE_SCHED -> c_prev (s_cmd s) = C_STG_WAIT -> c_armed (s_cmd s) = true -> c_ended (s_cmd s) = false ->
  e_b_init e = true -> (0 <= an_exec a)%Z -> e_udev e = true -> lstep lreg_scan (s, m) (L_handler a e) = UB.
Proof. exact (second_stage_lemma bad fields path l s m a e). Qed.
Print Assumptions second_stage_udev_refuted.
Example second_stage_case : (exists s m, history lreg_scan no_failure [F_ok] false (first_stage ++ [L_other A_udev; L_other A_message]) s m /\
    c_state (s_cmd s) = C_EXE_SCHED /\ c_prev (s_cmd s) = C_STG_WAIT /\ c_armed (s_cmd s) = true /\ c_ended (s_cmd s) = false) /\
  life lreg_scan no_failure [F_ok] false (first_stage ++ [L_other A_udev; L_other A_message; L_handler fine udev_effects]) = UB.
Proof. split; [|reflexivity]. eexists _, _. split; [eexists _, _; split; vm_compute; reflexivity|]. repeat split; reflexivity. Qed.

(* a scan that ends without a second stage leaves its iterator *)
Theorem one_stage_scan_refuted bad fields path l s m : udev_in_first lreg_scan bad fields path l -> history lreg_scan bad fields path l s m ->
  In (c_state (s_cmd s)) [C_STG_WAIT; C_TIM_OUT] -> exists m' n, destroy_command lreg_scan m = Ok m' /\ In (W_cmd, n) (live m').
Proof. exact (scan_iterator_lemma bad fields path l s m). Qed.
Print Assumptions one_stage_scan_refuted.
Example one_stage_case : (exists s m, history lreg_scan no_failure [F_ok] false first_stage s m /\ c_state (s_cmd s) = C_STG_WAIT) /\
  life lreg_scan no_failure [F_ok] false first_stage = Ok [(W_cmd, 6)].
Proof. split; [|reflexivity]. eexists _, _. split; [eexists _, _; split; vm_compute; reflexivity|reflexivity]. Qed.

(* a scan that ends while its export is not acknowledged leaves the buffer of the records to remove *)
Theorem waiting_scan_refuted bad fields path l s m : udev_in_first lreg_scan bad fields path l -> history lreg_scan bad fields path l s m ->
  c_state (s_cmd s) = C_EXPBUF_WAIT_ACK -> exists m' n, destroy_command lreg_scan m = Ok m' /\ In (W_uns, n) (live m').
Proof. exact (scan_unset_lemma bad fields path l s m). Qed.
Print Assumptions waiting_scan_refuted.
Example waiting_case : (exists s m, history lreg_scan no_failure [] false [L_handler fine udev_effects] s m /\ c_state (s_cmd s) = C_EXPBUF_WAIT_ACK) /\
  life lreg_scan no_failure [] false [L_handler fine udev_effects] = Ok [(W_uns, 8); (W_cmd, 5)].
Proof. split; [|reflexivity]. eexists _, _. split; [eexists _, _; split; vm_compute; reflexivity|reflexivity]. Qed.

(* every resources command that finishes leaves the mapping of the answer of the main process *)
Theorem resources_mapping_refuted bad fields path l s m : history lreg_resources bad fields path l s m -> c_state (s_cmd s) = C_FIN ->
  exists m' n, destroy_command lreg_resources m = Ok m' /\ In (W_cmd, n) (live m').
Proof. exact (resources_lemma bad fields path l s m). Qed.
Print Assumptions resources_mapping_refuted.
Example resources_case : (exists s m, history lreg_resources no_failure [] false whole_resources s m /\ c_state (s_cmd s) = C_FIN) /\
  life lreg_resources no_failure [] false whole_resources = Ok [(W_cmd, 3)].
Proof. split; [|reflexivity]. eexists _, _. split; [eexists _, _; split; vm_compute; reflexivity|reflexivity]. Qed.

(* the name of a property that cannot be set is not freed *)
Example field_name_lost : life lreg_checkpoint no_failure [F_ok; F_not_set] false [] = Ok [(W_key, 5)].
Proof. reflexivity. Qed.
