(* The life of a command in a worker (C62). *)
From Verif Require Import Base UbrCmd_Model UbrCmd_Spec UbrCmd_Proofs.
Local Open Scope nat_scope.

(* A scan whose both stages go well: everything succeeds, three bytes are exported in each stage *)
Definition good_answers := Answers 0 0 3 0 0 0.
Definition a_scan := [A_handler good_answers; A_main true; A_message; A_handler good_answers; A_udev; A_message; A_handler good_answers; A_main true; A_message; A_handler good_answers].
Definition a_trace := [Ran 1; Exported; Merged true; Responded; Ran 2; Exported; Merged true; Finished].
Example a_scan_runs : exists s, run reg_scan a_scan = Ok s /\ trace s = a_trace.
Proof. eexists. split; vm_compute; reflexivity. Qed.
Example a_scan_udev : udev_after_response reg_scan a_scan.
Proof.
  intros l1 l2 s E R. unfold a_scan in E.
  do 4 (destruct l1 as [|? l1]; [discriminate E|injection E as <- E]). destruct l1 as [|? l1].
  - vm_compute in R. injection R as <-. cbn. tauto.
  - exfalso. injection E as <- E. repeat (destruct l1 as [|? l1]; [discriminate E|injection E as <- E]). discriminate E || (destruct l1; discriminate E).
Qed.
Example a_scan_nothing_after : nothing_after_end reg_scan a_scan.
Proof.
  intros l1 l2 s E R F. unfold a_scan in E.
  do 2 (destruct l1 as [|? l1]; [discriminate E|injection E as <- E]). destruct l1 as [|? l1]; [vm_compute in R; injection R as <-; cbn in F; intuition discriminate|injection E as <- E].
  do 2 (destruct l1 as [|? l1]; [discriminate E|injection E as <- E]). destruct l1 as [|? l1]; [vm_compute in R; injection R as <-; cbn in F; intuition discriminate|injection E as <- E].
  do 2 (destruct l1 as [|? l1]; [discriminate E|injection E as <- E]). destruct l1 as [|? l1]; [vm_compute in R; injection R as <-; cbn in F; intuition discriminate|injection E as <- E].
  destruct l1 as [|? l1]; [discriminate E|injection E as <- E]. destruct l1; discriminate E.
Qed.

(* No run of a command, of whatever registration, with whatever failures and order of events, is undefined *)
Theorem command_defined : forall g l, exists s, run g l = Ok s.
Proof. exact no_ub_lemma. Qed.
Print Assumptions command_defined.

(* The stages run are the first, the second, ... without gap or repetition, and no more than the registration has *)
Theorem stages_in_order : forall g l s, asks_main g = false -> run g l = Ok s -> exists k, stages_run (trace s) = seq 1 k /\ k <= Nat.max 1 (stage_count g).
Proof. exact stages_lemma. Qed.
Print Assumptions stages_in_order.
Example stages_in_order_case : asks_main reg_scan = false /\ stages_run a_trace = seq 1 2.
Proof. split; reflexivity. Qed.

(* At most one response is sent *)
Theorem one_response : forall g l s, run g l = Ok s -> number_of is_responded (trace s) <= 1.
Proof. exact one_response_lemma. Qed.
Print Assumptions one_response.
Example one_response_case : number_of is_responded a_trace = 1.
Proof. reflexivity. Qed.

(* What was exported is merged when the response is sent, of commands exporting to the main process, if no uevent
   is handled before the response; that the merge succeeded does not follow (failed_merge_refuted) *)
Theorem response_after_merge_partial : forall g l s a b, to_main g = true -> asks_main g = false -> udev_after_response g l -> run g l = Ok s ->
  trace s = a ++ Responded :: b -> number_of is_exported a = number_of is_merged a.
Proof. exact response_lemma. Qed.
Print Assumptions response_after_merge_partial.
Example response_after_merge_case : to_main reg_scan = true /\ udev_after_response reg_scan a_scan /\ a_trace = [Ran 1; Exported; Merged true] ++ Responded :: [Ran 2; Exported; Merged true; Finished].
Proof. split; [reflexivity|]. split; [exact a_scan_udev|reflexivity]. Qed.

(* With a uevent handled early the response is sent though the main process has not taken what was exported *)
Theorem response_before_merge_refuted : exists l s a b, run reg_scan l = Ok s /\ trace s = a ++ Responded :: b /\ In Exported a /\ number_of is_merged a = 0.
Proof.
  exists [A_handler good_answers; A_udev; A_message; A_handler good_answers]. eexists. exists [Ran 1; Exported], []. split; [vm_compute; reflexivity|].
  split; [reflexivity|]. split; [right; left; reflexivity|reflexivity].
Qed.
Print Assumptions response_before_merge_refuted.
(* And it is sent when the merge failed *)
Theorem failed_merge_refuted : exists l s, run reg_scan l = Ok s /\ trace s = [Ran 1; Exported; Merged false; Responded].
Proof. exists [A_handler good_answers; A_main false; A_message; A_handler good_answers]. eexists. split; vm_compute; reflexivity. Qed.
Print Assumptions failed_merge_refuted.

(* A command finishes once and fails once at most; after it failed its worker does nothing *)
Theorem ends_once : forall g l s, run g l = Ok s -> number_of is_finished (trace s) <= 1 /\ number_of is_failed (trace s) <= 1.
Proof. exact (fun g l s H => conj (finished_once g l s H) (failed_once g l s H)). Qed.
Print Assumptions ends_once.
Theorem nothing_after_failure : forall g l s a b e, run g l = Ok s -> trace s = a ++ Failed :: b -> In e b -> is_merged e = true.
Proof. exact after_failed. Qed.
Print Assumptions nothing_after_failure.
Example nothing_after_failure_case : exists s, run reg_scan [A_handler (Answers 0 0 3 0 0 0); A_main true; A_message; A_handler (Answers 0 0 3 0 0 (-32)); A_message; A_handler good_answers; A_udev; A_main true] = Ok s
  /\ trace s = [Ran 1; Exported; Merged true] ++ Failed :: [].
Proof. eexists. split; vm_compute; reflexivity. Qed.

(* It does not do both when no message arrives after it finished; with one it does *)
Theorem one_end_partial : forall g l s, nothing_after_end g l -> run g l = Ok s -> ~ (In Finished (trace s) /\ In Failed (trace s)).
Proof. exact one_end. Qed.
Print Assumptions one_end_partial.
Example one_end_case : nothing_after_end reg_scan a_scan /\ In Finished a_trace.
Proof. split; [exact a_scan_nothing_after|]. cbn. tauto. Qed.
Theorem finished_then_failed_refuted : exists l s, run reg_scan l = Ok s /\ In Finished (trace s) /\ In Failed (trace s).
Proof. exists (a_scan ++ [A_udev; A_message; A_handler good_answers]). eexists. split; [vm_compute; reflexivity|]. cbn. tauto. Qed.
Print Assumptions finished_then_failed_refuted.

(* A command finishes, and runs a second stage, only when its response was sent *)
Theorem response_before_end : forall g l s a b e, run g l = Ok s -> trace s = a ++ e :: b -> e = Finished \/ (exists n, e = Ran n /\ 2 <= n) -> In Responded a.
Proof. exact after_response. Qed.
Print Assumptions response_before_end.
Example response_before_end_case : a_trace = [Ran 1; Exported; Merged true; Responded] ++ Ran 2 :: [Exported; Merged true; Finished].
Proof. reflexivity. Qed.
