(* Model of the life of worker proxies, src/resource/wrk-ctl.c: which events and calls change the state of a proxy, what signals are
   sent to the worker, when the proxy goes away.  The channels themselves are in Wrk_Model.v.  Creation of the proxy is assumed to
   succeed; callbacks of the lanes are not modelled. *)
From Verif Require Import Base Wrk_Model.

(* errno.h, signal.h *)
Definition ECHRNG : Z := 44.
Definition ENOMEDIUM : Z := 123.
Definition ENOTCONN : Z := 107.
Definition SIGTERM : N := 15.

(* sid_wrk_state_t, src/include/resource/wrk-ctl.h:23-31 (SID_WRK_STATE_UNKNOWN is the answer for no proxy). *)
Inductive wstate := NEW | IDLE | ASSIGNED | EXITING | TIMED_OUT | EXITED.

(* struct worker_proxy, src/resource/wrk-ctl.c:93-103, and of its resource the type (with its own event loop or not), the references, and
   which event sources are still armed: the time source fires once (src/resource/res.c:986), the child source once per process. *)
Record proxy := { p_pid : N; p_state : wstate; p_loop : bool; p_timer : bool; p_sig : N; p_child : bool; p_refs : nat; p_exit : bool }.

Definition with_state p st :=
  {| p_pid := p_pid p; p_state := st; p_loop := p_loop p; p_timer := p_timer p; p_sig := p_sig p; p_child := p_child p; p_refs := p_refs p; p_exit := p_exit p |}.
Definition with_refs p n :=
  {| p_pid := p_pid p; p_state := p_state p; p_loop := p_loop p; p_timer := p_timer p; p_sig := p_sig p; p_child := p_child p; p_refs := n; p_exit := p_exit p |}.

(* The proxies of a worker control in the order of creation; None: destroyed. *)
Definition wsys := list (option proxy).

Fixpoint upd (s : wsys) (k : nat) (p : option proxy) : wsys :=
  match s, k with
  | [], _ => []
  | _ :: t, O => p :: t
  | x :: t, S k => x :: upd t k p
  end.

(* What happens: calls of the interface (found: the id names a channel of the proxy), and events (kill: the kernel accepts the signal). *)
Inductive wop :=
| WNew (pid : N) (loop : bool) (timer : bool) (sig : N)
| WSend (k : nat) (found : bool)
| WClose (k : nat) (found : bool)
| WRef (k : nat)
| WUnref (k : nat)
| WYielded (k : nat) (kill : bool)
| WTimeout (k : nat) (kill : bool)
| WChildExit (k : nat).

(* Result: the code of the call, and the signal sent. *)
Record wres := { w_code : Z; w_signal : option (N * N) }.
Definition quiet (c : Z) : wres := {| w_code := c; w_signal := None |}.

(* sid_res_unref of a proxy (_do_sid_res_unref, src/resource/res.c:359-412): the last reference is the parent's. *)
Definition unref_proxy (s : wsys) (k : nat) (p : proxy) : wsys :=
  upd s k (if (p_refs p <=? 1)%nat then None else Some (with_refs p (p_refs p - 1))).

(* _channel_prepare_send for a proxy or a resource below it, src/resource/wrk-ctl.c:1282-1312 and 1328-1329: only proxies without own
   event loop are found. *)
Definition prepare_send (s : wsys) (k : nat) (p : proxy) (found : bool) : wsys * Z :=
  if p_loop p then (s, (- ENOMEDIUM)%Z)
  else if negb found then (s, (- ECHRNG)%Z)
  else (upd s k (Some (with_state p ASSIGNED)), 0%Z).

(* Calls on a destroyed proxy use freed memory; events of a destroyed proxy do not happen. *)
Definition wstep (s : wsys) (o : wop) : outcome (wsys * wres) :=
  match o with
  (* _do_worker_control_get_new_worker, src/resource/wrk-ctl.c:904-937, and _init_worker_proxy, 1488-1540 *)
  | WNew pid loop timer sig =>
      Ok (s ++ [Some {| p_pid := pid; p_state := NEW; p_loop := loop; p_timer := timer; p_sig := sig; p_child := true; p_refs := 1; p_exit := false |}],
          quiet 0)
  (* sid_wrk_ctl_chan_send, src/resource/wrk-ctl.c:1335-1344, up to the sending; sid_wrk_ctl_chan_close, 1346-1358 *)
  | WSend k found | WClose k found =>
      match nth_error s k with
      | Some (Some p) => let (s, r) := prepare_send s k p found in Ok (s, quiet r)
      | _ => UB
      end
  | WRef k =>
      match nth_error s k with
      | Some (Some p) => Ok (upd s k (Some (with_refs p (S (p_refs p)))), quiet 0)
      | _ => UB
      end
  | WUnref k =>
      match nth_error s k with
      | Some (Some p) => Ok (unref_proxy s k p, quiet 0)
      | _ => UB
      end
  (* _on_worker_proxy_channel_event on WORKER_CHANNEL_CMD_YIELD, src/resource/wrk-ctl.c:384-396, and _make_worker_exit, 351-360 *)
  | WYielded k kill =>
      match nth_error s k with
      | Some (Some p) =>
          Ok (if kill then upd s k (Some (with_state p EXITING)) else s, {| w_code := 0; w_signal := Some (p_pid p, SIGTERM) |})
      | _ => Ok (s, quiet 0)
      end
  (* _on_worker_proxy_timeout_event, src/resource/wrk-ctl.c:1465-1486 *)
  | WTimeout k kill =>
      match nth_error s k with
      | Some (Some p) =>
          if p_timer p then
            let p' := {| p_pid := p_pid p; p_state := TIMED_OUT; p_loop := p_loop p; p_timer := false; p_sig := p_sig p; p_child := p_child p;
                         p_refs := p_refs p; p_exit := p_exit p |} in
            Ok (upd s k (Some p'),
                if (p_sig p =? 0)%N then quiet 0
                else {| w_code := if kill then 0 else -1; w_signal := Some (p_pid p, p_sig p) |})
          else Ok (s, quiet 0)
      | _ => Ok (s, quiet 0)
      end
  (* _on_worker_proxy_child_event, src/resource/wrk-ctl.c:1390-1429 *)
  | WChildExit k =>
      match nth_error s k with
      | Some (Some p) =>
          if p_child p then
            let p' := {| p_pid := p_pid p; p_state := EXITED; p_loop := p_loop p; p_timer := p_timer p; p_sig := p_sig p; p_child := false;
                         p_refs := p_refs p; p_exit := p_exit p || p_loop p |} in
            Ok (unref_proxy s k p', quiet 0)
          else Ok (s, quiet 0)
      | _ => Ok (s, quiet 0)
      end
  end.

Fixpoint wrun (s : wsys) (ops : list wop) : outcome (wsys * list wres) :=
  match ops with
  | [] => Ok (s, [])
  | o :: t => let! (s, r) := wstep s o in let! (s, rs) := wrun s t in Ok (s, r :: rs)
  end.

(* sid_wrk_ctl_get_idle_worker, src/resource/wrk-ctl.c:1116-1134: position of the proxy. *)
Fixpoint get_idle (s : wsys) : option nat :=
  match s with
  | [] => None
  | Some p :: t => match p_state p with IDLE => Some O | _ => match get_idle t with Some k => Some (S k) | None => None end end
  | None :: t => match get_idle t with Some k => Some (S k) | None => None end
  end.

(* sid_wrk_ctl_get_worker_state of a proxy, src/resource/wrk-ctl.c:1158-1174. *)
Definition get_state (s : wsys) (k : nat) : outcome wstate :=
  match nth_error s k with Some (Some p) => Ok (p_state p) | _ => UB end.

(* sid_wrk_ctl_yield_worker in the worker, src/resource/wrk-ctl.c:1360-1388, after the worker resource was found: which channel the wish
   is sent over, how often the worker raises SIGTERM for itself, and the code ([None]: what the sending returns). *)
Fixpoint yield_worker (parent_exited : bool) (i : nat) (wires : list wtype) : option nat * nat * option Z :=
  match wires with
  | [] => (None, O, Some (- ENOTCONN)%Z)
  | w :: t =>
      match w with
      | WIRE_PIPE_TO_PRX | WIRE_SOCKET =>
          if parent_exited then let '(c, n, r) := yield_worker parent_exited (S i) t in (c, S n, r)
          else (Some i, O, None)
      | _ => yield_worker parent_exited (S i) t
      end
  end.
