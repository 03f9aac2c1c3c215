(* C45: the life of worker proxies. *)
From Verif Require Import Base Wrk_Model WrkLife_Model WrkLife_Spec WrkLife_Proofs.

Definition ex_run (ops : list wop) : option (list (option wstate) * list wres) :=
  match wrun [] ops with Ok (s, rs) => Some (map (option_map p_state) s, rs) | UB => None end.

(* C45: in any history in which nobody takes an extra reference to a proxy, a worker only moves forward; the only step back is work sent
   to a worker that is on its way out. *)
Theorem worker_moves_forward_partial : forall ops s rs o s' r k p p',
  no_refs ops -> wrun [] ops = Ok (s, rs) -> wstep s o = Ok (s', r) -> nth_error s k = Some (Some p) -> nth_error s' k = Some (Some p') ->
  (rank (p_state p) <= rank (p_state p'))%nat \/ ((o = WSend k true \/ o = WClose k true) /\ (p_state p = EXITING \/ p_state p = TIMED_OUT)).
Proof. exact forward_lemma. Qed.
Print Assumptions worker_moves_forward_partial.
Example worker_moves_forward_ex :
  no_refs [WNew 100 false true 9; WNew 101 true false 0; WSend 0 true; WYielded 0 true; WChildExit 0; WTimeout 1 true] /\
  ex_run [WNew 100 false true 9; WNew 101 true false 0; WSend 0 true; WYielded 0 true; WChildExit 0; WTimeout 1 true] =
    Some ([None; Some NEW], [quiet 0; quiet 0; quiet 0; {| w_code := 0; w_signal := Some (100, 15)%N |}; quiet 0; quiet 0]).
Proof. split; [intros j H; repeat (destruct H as [H|H]; [discriminate|]); contradiction|vm_compute; reflexivity]. Qed.

(* C45: with references, exactly when a step goes back, whatever the state. *)
Theorem worker_moves_back_iff : forall s o s' r k p p',
  wstep s o = Ok (s', r) -> nth_error s k = Some (Some p) -> nth_error s' k = Some (Some p') ->
  (rank (p_state p') < rank (p_state p))%nat <->
  (((o = WSend k true \/ o = WClose k true) /\ p_loop p = false /\ (2 <= rank (p_state p))%nat) \/
   ((o = WYielded k true \/ ((exists b, o = WTimeout k b) /\ p_timer p = true)) /\ p_state p = EXITED)).
Proof. exact back_lemma. Qed.
Print Assumptions worker_moves_back_iff.

(* C45, refuted: work is accepted for a worker that was told to exit, or timed out, and it counts as assigned again. *)
Theorem worker_assigned_while_exiting_refuted :
  ex_run [WNew 100 false true 9; WSend 0 true; WYielded 0 true; WSend 0 true] =
    Some ([Some ASSIGNED], [quiet 0; quiet 0; {| w_code := 0; w_signal := Some (100, 15)%N |}; quiet 0]) /\
  ex_run [WNew 100 false true 9; WTimeout 0 true; WSend 0 true] =
    Some ([Some ASSIGNED], [quiet 0; {| w_code := 0; w_signal := Some (100, 9)%N |}; quiet 0]).
Proof. split; vm_compute; reflexivity. Qed.
Print Assumptions worker_assigned_while_exiting_refuted.

(* C45, refuted: with a reference kept, work is accepted for a worker that has exited, and its timeout still fires: it becomes timed out
   and the signal goes to a process number that is no longer the worker's. *)
Theorem worker_assigned_after_exit_refuted :
  ex_run [WNew 100 false true 9; WRef 0; WChildExit 0; WSend 0 true] = Some ([Some ASSIGNED], [quiet 0; quiet 0; quiet 0; quiet 0]) /\
  ex_run [WNew 100 false true 9; WRef 0; WChildExit 0; WTimeout 0 true] =
    Some ([Some TIMED_OUT], [quiet 0; quiet 0; quiet 0; {| w_code := 0; w_signal := Some (100, 9)%N |}]).
Proof. split; vm_compute; reflexivity. Qed.
Print Assumptions worker_assigned_after_exit_refuted.

(* C45: what each event does, and that a timeout and an exit count once. *)
Theorem worker_events : forall s k p, nth_error s k = Some (Some p) ->
  (exists s', wstep s (WYielded k true) = Ok (s', {| w_code := 0; w_signal := Some (p_pid p, SIGTERM) |}) /\ get_state s' k = Ok EXITING /\
     forall j, j <> k -> nth_error s' j = nth_error s j) /\
  wstep s (WYielded k false) = Ok (s, {| w_code := 0; w_signal := Some (p_pid p, SIGTERM) |}) /\
  (p_timer p = true -> forall b, exists s', wstep s (WTimeout k b) =
       Ok (s', if (p_sig p =? 0)%N then quiet 0 else {| w_code := if b then 0 else -1; w_signal := Some (p_pid p, p_sig p) |}) /\
     get_state s' k = Ok TIMED_OUT /\ (forall b2, wstep s' (WTimeout k b2) = Ok (s', quiet 0)) /\ forall j, j <> k -> nth_error s' j = nth_error s j) /\
  (p_child p = true -> exists s', wstep s (WChildExit k) = Ok (s', quiet 0) /\
     (if (p_refs p <=? 1)%nat then nth_error s' k = Some None else get_state s' k = Ok EXITED) /\ wstep s' (WChildExit k) = Ok (s', quiet 0) /\
     forall j, j <> k -> nth_error s' j = nth_error s j).
Proof. exact events_lemma. Qed.
Print Assumptions worker_events.

(* C45: sending (and closing a channel): refused for proxies with their own event loop and for unknown channels, changing nothing; otherwise
   the worker is assigned, and no other. *)
Theorem worker_send_assigns : forall s k p found, nth_error s k = Some (Some p) ->
  exists s' r, wstep s (WSend k found) = Ok (s', quiet r) /\ wstep s (WClose k found) = Ok (s', quiet r) /\
    (r = 0 <-> p_loop p = false /\ found = true)%Z /\ (r <> 0%Z -> s' = s) /\ (r = 0%Z -> get_state s' k = Ok ASSIGNED) /\
    forall j, j <> k -> nth_error s' j = nth_error s j.
Proof. exact send_code_lemma. Qed.
Print Assumptions worker_send_assigns.
Example worker_events_ex : exists s rs p, wrun [] [WNew 100 false true 9; WSend 0 true; WRef 0] = Ok (s, rs) /\
  nth_error s 0 = Some (Some p) /\ p_timer p = true /\ p_child p = true /\ p_refs p = 2%nat /\ p_state p = ASSIGNED.
Proof. eexists _, _, _. split; [vm_compute; reflexivity|]. repeat split. Qed.

(* C45: the idle worker handed out is idle, the first one that is. *)
Theorem worker_idle_first : forall s,
  match get_idle s with
  | Some k => (exists p, nth_error s k = Some (Some p) /\ p_state p = IDLE) /\
              forall j p, (j < k)%nat -> nth_error s j = Some (Some p) -> p_state p <> IDLE
  | None => forall j p, nth_error s j = Some (Some p) -> p_state p <> IDLE
  end.
Proof. exact idle_first_lemma. Qed.
Print Assumptions worker_idle_first.

(* C45, refuted: no worker ever becomes idle, whatever happens; none is ever handed out. *)
Theorem worker_idle_never_refuted : forall ops s rs, wrun [] ops = Ok (s, rs) -> get_idle s = None.
Proof. exact idle_never_lemma. Qed.
Print Assumptions worker_idle_never_refuted.

(* C45: without extra references every signal goes to a worker whose process has not been collected yet, SIGTERM when it yielded and the
   configured one when it timed out; and when the process ends its proxy goes away, and no other. *)
Theorem worker_signal_own_partial : forall ops s rs o s' r pid sig,
  no_refs ops -> wrun [] ops = Ok (s, rs) -> wstep s o = Ok (s', r) -> w_signal r = Some (pid, sig) ->
  exists k p, nth_error s k = Some (Some p) /\ p_pid p = pid /\ p_child p = true /\
    ((exists b, o = WYielded k b) /\ sig = SIGTERM \/ (exists b, o = WTimeout k b) /\ sig = p_sig p).
Proof. exact signal_lemma. Qed.
Print Assumptions worker_signal_own_partial.
Theorem worker_exit_removes_partial : forall ops s rs k p, no_refs ops -> wrun [] ops = Ok (s, rs) -> nth_error s k = Some (Some p) ->
  exists s', wstep s (WChildExit k) = Ok (s', quiet 0) /\ nth_error s' k = Some None /\ forall j, j <> k -> nth_error s' j = nth_error s j.
Proof. exact exit_lemma. Qed.
Print Assumptions worker_exit_removes_partial.

(* C45: a worker that yields while its parent lives tells it once, over the first channel that leads there; without one it fails. *)
Theorem worker_yields_once : forall ws i,
  match yield_worker false i ws with
  | (Some j, n, r) => (i <= j)%nat /\ n = O /\ r = None /\ (exists w, nth_error ws (j - i) = Some w /\ to_proxy w) /\
                      forall m w, (m < j - i)%nat -> nth_error ws m = Some w -> ~ to_proxy w
  | (None, n, r) => n = O /\ r = Some (- ENOTCONN)%Z /\ forall w, In w ws -> ~ to_proxy w
  end.
Proof. exact yield_alive_lemma. Qed.
Print Assumptions worker_yields_once.
Example worker_yields_once_ex : yield_worker false 0 [WIRE_PIPE_TO_WRK; WIRE_SOCKET; WIRE_PIPE_TO_PRX] = (Some 1%nat, 0%nat, None).
Proof. reflexivity. Qed.

(* C45, refuted: when the parent is gone the worker ends itself once for each such channel, and yielding reports failure. *)
Theorem worker_yields_without_parent_refuted : forall ws i, yield_worker true i ws =
  (None, length (filter (fun w => match w with WIRE_PIPE_TO_PRX | WIRE_SOCKET => true | _ => false end) ws), Some (- ENOTCONN)%Z).
Proof. exact yield_orphan_lemma. Qed.
Print Assumptions worker_yields_without_parent_refuted.
