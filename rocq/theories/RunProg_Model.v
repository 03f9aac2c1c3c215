(* Running a program and waiting for it: sid_wrk_ctl_run_new_worker, src/resource/wrk-ctl.c:1082-1114, seen from the module that calls it: in
   which processes the call returns. *)
From Verif Require Import Base.
Local Open Scope Z_scope.

Definition EBUSY : Z := 16.
Definition ENOTSUP : Z := 95.
Definition ESRCH : Z := 3.
(* struct worker_control, src/resource/wrk-ctl.c:93-103, as far as needed: the type, whether channel_specs is set, channel_spec_count, and
   worker_init.prepared *)
Record ctl := Ctl { v_external : bool; v_specs : bool; v_count : nat; v_prepared : bool }.
(* What the calls answer.  In the caller: memory for the channels, the channels, sigfillset and sigprocmask, fork, the creation of the proxy,
   and the result of its event loop.  In the child: whether the parent still runs, _close_non_channel_fds, the vectors of arguments and
   environment, _setup_channels, the callback if there is one, execve *)
Record answers := Answers { k_memory : bool; k_channels : bool; k_signals : bool; k_fork : bool; k_proxy : bool; k_loop : Z;
                            k_parent : bool; k_close : bool; k_vectors : bool; k_setup : Z; k_init : option Z; k_exec : bool }.
(* What becomes of a process: the call returns in it, it runs the program, it has ended *)
Inductive fate := Returned (c : ctl) (r : Z) | Program | Ended.

(* _run_external_worker, src/resource/wrk-ctl.c:1004-1056.  What it frees and closes is in WrkFd_Model. *)
Definition run_external (c : ctl) (a : answers) : fate :=
  let c := Ctl (v_external c) false (v_count c) (v_prepared c) in
  if k_setup a <? 0 then Returned c (k_setup a)
  else
    let r := match k_init a with Some r => r | None => 0 end in
    if r <? 0 then Returned c r
    else if k_exec a then Program else Returned c (-1).
(* sid_wrk_ctl_run_worker, src/resource/wrk-ctl.c:1058-1076, for an external worker *)
Definition run_worker (c : ctl) (a : answers) : fate :=
  if negb (v_prepared c) then Returned c (- ESRCH)
  else run_external (Ctl (v_external c) (v_specs c) (v_count c) false) a.
(* The child in _do_worker_control_get_new_worker, src/resource/wrk-ctl.c:826-904, and then sid_wrk_ctl_run_new_worker, 1109-1113 *)
Definition child (c : ctl) (a : answers) : fate :=
  if negb (k_parent a) then Ended
  else if negb (k_close a) then Ended
  else if negb (k_vectors a) then Ended
  else run_worker (Ctl (v_external c) (v_specs c) (v_count c) true) a.
(* sid_wrk_ctl_run_new_worker, src/resource/wrk-ctl.c:1082-1114, with _do_worker_control_get_new_worker, 787-949: what becomes of the caller,
   and of the child if there is one.  _create_channels reads the specs (198-202). *)
Definition run_new_worker (c : ctl) (a : answers) : outcome (fate * option fate) :=
  if negb (v_external c) then Ok (Returned c (- ENOTSUP), None)
  else if v_prepared c then Ok (Returned c (- EBUSY), None)
  else if negb (k_memory a) then Ok (Returned c (-1), None)
  else if negb (v_specs c) && (0 <? v_count c)%nat then UB
  else if negb (k_channels a) then Ok (Returned c (-1), None)
  else if negb (k_signals a) then Ok (Returned c (-1), None)
  else if negb (k_fork a) then Ok (Returned c (-1), None)
  else Ok (if k_proxy a then Returned c (k_loop a) else Returned c (-1), Some (child c a)).

(* A module runs programs one after the other.  A process is named by its history: true where it is the child of the one before.  The
   answers may depend on the process.  The result: the processes in which all calls have returned.  What a module does with an error is left
   out: _lvm_scan_next and _lvm_scan_action_next (src/modules/ucmd/type/dm/lvm/lvm.c:317-392) return it, and the scan goes on. *)
Definition process := list bool.
Fixpoint run_all (l : list (process -> answers)) (p : process) (c : ctl) : outcome (list (process * ctl)) :=
  match l with
  | [] => Ok [(p, c)]
  | f :: l =>
    let! (x, y) := run_new_worker c (f p) in
    let! a := match x with Returned c _ => run_all l (p ++ [false]) c | _ => Ok [] end in
    let! b := match y with Some (Returned c _) => run_all l (p ++ [true]) c | _ => Ok [] end in
    Ok (a ++ b)
  end.
