(* The states of a command in a worker and its exchange with the main process, src/resource/ubr.c. *)
From Verif Require Import Base.
Local Open Scope nat_scope.

(* cmd_state_t, src/resource/ubr.c:201-218 *)
Inductive cmd_state := C_UNDEFINED | C_INI | C_STG_WAIT | C_EXE_SCHED | C_EXE_RUN | C_EXE_WAIT | C_RES_BUILD
| C_EXPBUF_F_SEND | C_RESBUF_L_SEND | C_RESBUF_F_SEND | C_EXPBUF_L_SEND | C_EXPBUF_WAIT_ACK | C_TIM_OUT | C_ERR | C_FIN.
Definition state_eqb (a b : cmd_state) : bool :=
  match a, b with
  | C_UNDEFINED, C_UNDEFINED | C_INI, C_INI | C_STG_WAIT, C_STG_WAIT | C_EXE_SCHED, C_EXE_SCHED | C_EXE_RUN, C_EXE_RUN
  | C_EXE_WAIT, C_EXE_WAIT | C_RES_BUILD, C_RES_BUILD | C_EXPBUF_F_SEND, C_EXPBUF_F_SEND | C_RESBUF_L_SEND, C_RESBUF_L_SEND
  | C_RESBUF_F_SEND, C_RESBUF_F_SEND | C_EXPBUF_L_SEND, C_EXPBUF_L_SEND | C_EXPBUF_WAIT_ACK, C_EXPBUF_WAIT_ACK
  | C_TIM_OUT, C_TIM_OUT | C_ERR, C_ERR | C_FIN, C_FIN => true
  | _, _ => false
  end.
Definition in_set (a : cmd_state) (l : list cmd_state) : bool := existsb (state_eqb a) l.

(* What of struct cmd_reg (src/resource/ubr.c:5710-5736) matters: CMD_KV_EXPBUF_TO_MAIN, whether anything is exported
   (the CMD_KV_EXPORT flags), stage_count, and the resources command, which asks the main process first *)
Record reg := Reg { to_main : bool; exports : bool; stage_count : nat; asks_main : bool }.
Definition reg_scan := Reg true true 2 false.
Definition reg_dbdump := Reg false true 0 false.
Definition reg_resources := Reg false false 0 true.
Definition reg_version := Reg false false 0 false.

(* What can be observed *)
Inductive event :=
| Ran (stage : nat)        (* the command's exec function was called *)
| Exported                 (* the export buffer was sent to the main process *)
| Merged (ok : bool)       (* the main process merged an export buffer, with or without success *)
| Responded                (* the response was sent to the client *)
| Finished | Failed.       (* the state became FIN or ERR *)
(* Messages of a worker to the main process: SYSTEM_CMD_SYNC with the buffer, SYSTEM_CMD_RESOURCES; and back: the
   acknowledgement of the first, the answer to the second, SYSTEM_CMD_UMONITOR *)
Inductive to_main_msg := M_Sync | M_Resources.
Inductive to_worker_msg := W_Sync | W_Resources | W_Umonitor.

(* struct sid_ucmd_ctx: state, prev_state, stage, tim_out_es (exists), res_buf (exists), exp_buf (its number of bytes
   without the prefix when it exists), resources.main_res_mem (set); whether the handler is to be called (cmd_handler_es: the
   counter set to one more than the number of calls, src/resource/res.c:963-992) and whether the event loop of the worker
   ended (sid_res_ev_set_exit_on_failure, src/resource/ubr.c:6335) *)
Record cmd := Cmd {
  c_state : cmd_state; c_prev : cmd_state; c_stage : nat; c_timer : bool; c_resbuf : bool; c_expbuf : option nat; c_mem : bool;
  c_armed : bool; c_ended : bool;
  c_sent : list to_main_msg; (* on the way to the main process *)
  c_trace : list event }.
Definition emit (c : cmd) (e : event) : cmd :=
  Cmd (c_state c) (c_prev c) (c_stage c) (c_timer c) (c_resbuf c) (c_expbuf c) (c_mem c) (c_armed c) (c_ended c) (c_sent c) (c_trace c ++ [e]).
Definition send (c : cmd) (m : to_main_msg) : cmd :=
  Cmd (c_state c) (c_prev c) (c_stage c) (c_timer c) (c_resbuf c) (c_expbuf c) (c_mem c) (c_armed c) (c_ended c) (c_sent c ++ [m]) (c_trace c).

(* What the surroundings do in a call of the handler: results of exec, of building the export buffer and its size, of creating the
   timer and of sending both buffers *)
Record answers := Answers { an_exec : Z; an_build : Z; an_count : nat; an_timer : Z; an_exp : Z; an_res : Z }.

(* _is_last_stage, src/resource/ubr.c:4438-4441 *)
Definition is_last_stage (g : reg) (c : cmd) : bool := (stage_count g =? 0) || (stage_count g =? c_stage c).
(* _change_cmd_state, src/resource/ubr.c:4443-4517.  stage_names has an entry for each of stage_count stages: reading outside
   of it (4467) is UB.  timer is the result of creating the timer. *)
Definition set_state (c : cmd) (s : cmd_state) (stage : nat) (timer armed : bool) : cmd :=
  Cmd s (c_state c) stage timer (c_resbuf c) (c_expbuf c) (c_mem c) armed (c_ended c) (c_sent c)
      (match s with C_FIN => c_trace c ++ [Finished] | C_ERR => c_trace c ++ [Failed] | _ => c_trace c end).
Definition change_state (g : reg) (c : cmd) (s : cmd_state) (timer : Z) : outcome (cmd * Z) :=
  if state_eqb (c_state c) s then Ok (c, (-1)%Z)
  else
    match s with
    | C_EXE_SCHED =>
      let armed := if state_eqb (c_state c) C_INI then c_armed c else true in
      if in_set (c_state c) [C_INI; C_STG_WAIT] then
        if negb (stage_count g =? 0) && (stage_count g <? S (c_stage c)) then UB
        else Ok (set_state c s (S (c_stage c)) false armed, 0%Z)
      else Ok (set_state c s (c_stage c) false armed, 0%Z)
    | C_STG_WAIT =>
      if is_last_stage g c then Ok (c, (-1)%Z)
      else if (timer <? 0)%Z then Ok (c, (-1)%Z)
      else Ok (set_state c s (c_stage c) true (c_armed c), 0%Z)
    | C_TIM_OUT =>
      if negb (state_eqb (c_state c) C_STG_WAIT) then Ok (c, (-1)%Z)
      else Ok (set_state c s (c_stage c) false true, 0%Z)
    | _ => Ok (set_state c s (c_stage c) (c_timer c) (c_armed c), 0%Z)
    end.

(* cmd_reg->exec; of _cmd_exec_resources (src/resource/ubr.c:4540-4644) the request to the main process (4566-4599) *)
Definition exec (g : reg) (c : cmd) (a : answers) : outcome (cmd * Z) :=
  let c := emit c (Ran (c_stage c)) in
  if asks_main g && negb (c_mem c) then
    if (an_exec a <? 0)%Z then Ok (c, (-1)%Z) else change_state g (send c M_Resources) C_EXE_WAIT 0
  else Ok (c, an_exec a).
Definition with_bufs (c : cmd) (res : bool) (exp : option nat) : cmd :=
  Cmd (c_state c) (c_prev c) (c_stage c) (c_timer c) res exp (c_mem c) (c_armed c) (c_ended c) (c_sent c) (c_trace c).
(* _build_cmd_kv_buffers, src/resource/ubr.c:1292-1560, as to the export buffer *)
Definition build_buffers (g : reg) (c : cmd) (a : answers) : cmd * Z :=
  if negb (exports g) then (c, 0%Z)
  else if (an_build a <? 0)%Z then (c, an_build a)
  else (with_bufs c (c_resbuf c) (Some (an_count a)), 0%Z).
(* _send_out_cmd_expbuf, src/resource/ubr.c:5768-5852 *)
Definition send_expbuf (g : reg) (c : cmd) (a : answers) : cmd * Z :=
  match c_expbuf c with
  | None => (c, 0%Z)
  | Some n =>
    let c' := with_bufs c (c_resbuf c) None in
    if to_main g then
      if n =? 0 then (c', (- ENODATA)%Z)
      else if (an_exp a <? 0)%Z then (c', an_exp a)
      else (emit (send c' M_Sync) Exported, 0%Z)
    else if (an_exp a <? 0)%Z then (c', an_exp a) else (c', 0%Z)
  end.
(* _send_out_cmd_resbuf, src/resource/ubr.c:5854-5894, of a command of a client *)
Definition send_resbuf (c : cmd) (a : answers) : cmd * Z :=
  if negb (c_resbuf c) then (c, 0%Z)
  else
    let c' := with_bufs c false (c_expbuf c) in
    if (an_res a <? 0)%Z then (c', an_res a) else (emit c' Responded, 0%Z).

(* _cmd_handler, src/resource/ubr.c:5896-6029, up to the label out: cmd and r.  andthen is "if (r < 0) goto out". *)
Definition andthen (x : outcome (cmd * Z)) (f : cmd -> outcome (cmd * Z)) : outcome (cmd * Z) :=
  let! (c, r) := x in if (r <? 0)%Z then Ok (c, r) else f c.
Definition end_stage (g : reg) (c : cmd) (a : answers) : outcome (cmd * Z) :=
  if is_last_stage g c then change_state g c C_FIN 0 else change_state g c C_STG_WAIT (an_timer a).
(* 5993-6014; r is the value so far *)
Definition handler_tail (g : reg) (c : cmd) (a : answers) (r : Z) : outcome (cmd * Z) :=
  match c_state c with
  | C_RESBUF_L_SEND => andthen (Ok (send_resbuf c a)) (fun c => end_stage g c a)
  | C_EXPBUF_L_SEND =>
    let (c, r) := send_expbuf g c a in
    if (r <? 0)%Z && negb (r =? - ENODATA)%Z then Ok (c, r) else end_stage g c a
  | _ => Ok (c, r)
  end.
(* 5971-5992 *)
Definition handler_send (g : reg) (c : cmd) (a : answers) (r : Z) : outcome (cmd * Z) :=
  match c_state c with
  | C_EXPBUF_F_SEND =>
    let (c, r) := send_expbuf g c a in
    if (r <? 0)%Z && negb (r =? - ENODATA)%Z then Ok (c, r)
    else
      let! (c, r) := change_state g c (if (r =? - ENODATA)%Z then C_RESBUF_L_SEND else C_EXPBUF_WAIT_ACK) 0 in
      if (r <? 0)%Z then Ok (c, r) else handler_tail g c a r
  | C_RESBUF_F_SEND =>
    andthen (Ok (send_resbuf c a)) (fun c => andthen (change_state g c C_EXPBUF_L_SEND 0) (fun c => handler_tail g c a 0))
  | _ => handler_tail g c a r
  end.
(* 5953-5969 *)
Definition handler_build (g : reg) (c : cmd) (a : answers) (r : Z) : outcome (cmd * Z) :=
  match c_state c with
  | C_RES_BUILD =>
    andthen (Ok (build_buffers g c a)) (fun c =>
      andthen (change_state g c (if to_main g then C_EXPBUF_F_SEND else C_RESBUF_F_SEND) 0) (fun c => handler_send g c a 0))
  | _ => handler_send g c a r
  end.
(* 5903-5951 *)
Definition handler_body (g : reg) (c : cmd) (a : answers) : outcome (cmd * Z) :=
  if state_eqb (c_state c) C_TIM_OUT then Ok (c, (-1)%Z)
  else if negb (state_eqb (c_state c) C_EXE_SCHED) then Ok (c, (-1)%Z)
  else if in_set (c_prev c) [C_INI; C_EXE_WAIT; C_STG_WAIT] then
    andthen (change_state g c C_EXE_RUN 0) (fun c =>
      let! (c, r) := exec g c a in
      if (r <? 0)%Z then Ok (c, r)
      else if state_eqb (c_state c) C_EXE_RUN then andthen (change_state g c C_RES_BUILD 0) (fun c => handler_build g c a 0)
      else handler_build g c a r)
  else if state_eqb (c_prev c) C_EXPBUF_WAIT_ACK then andthen (change_state g c C_RESBUF_L_SEND 0) (fun c => handler_build g c a 0)
  else handler_build g c a (-1).
Definition disarm (c : cmd) : cmd :=
  Cmd (c_state c) (c_prev c) (c_stage c) (c_timer c) (c_resbuf c) (c_expbuf c) (c_mem c) false (c_ended c) (c_sent c) (c_trace c).
Definition end_loop (c : cmd) : cmd :=
  Cmd (c_state c) (c_prev c) (c_stage c) (c_timer c) (c_resbuf c) (c_expbuf c) (c_mem c) (c_armed c) true (c_sent c) (c_trace c).
(* The call of the handler (_sd_generic_event_handler, src/resource/res.c:852-865): the counter goes up before it, a failure ends the
   loop.  The records marked for removal (6022) and sid_wrk_ctl_yield_worker (6025) are left out. *)
Definition handler (g : reg) (c : cmd) (a : answers) : outcome cmd :=
  let! (c, r) := handler_body g (disarm c) a in
  if (r <? 0)%Z then let! (c, _) := change_state g c C_ERR 0 in Ok (end_loop c) else Ok c.

(* A command after _init_command, src/resource/ubr.c:6231-6342 *)
Definition init_cmd (g : reg) : outcome cmd :=
  let c := Cmd C_INI C_UNDEFINED 0 false true None false true false [] [] in
  let! (c, _) := change_state g c C_EXE_SCHED 0 in Ok c.

(* The worker with the main process and the messages on the way *)
Record sys := Sys { s_cmd : cmd; s_in : list to_worker_msg }.
Inductive action :=
| A_handler (a : answers)  (* the worker's event loop calls the handler *)
| A_main (ok : bool)       (* the main process takes a message *)
| A_udev                   (* the main process sees a uevent of the device *)
| A_message                (* the worker takes a message *)
| A_timer.                 (* the timer fires *)
Definition with_mem (c : cmd) : cmd :=
  Cmd (c_state c) (c_prev c) (c_stage c) (c_timer c) (c_resbuf c) (c_expbuf c) true (c_armed c) (c_ended c) (c_sent c) (c_trace c).
Definition with_sent (c : cmd) (l : list to_main_msg) : cmd :=
  Cmd (c_state c) (c_prev c) (c_stage c) (c_timer c) (c_resbuf c) (c_expbuf c) (c_mem c) (c_armed c) (c_ended c) l (c_trace c).
(* An action that cannot happen changes nothing.
   A_main: _worker_proxy_recv_system_cmd_sync, src/resource/ubr.c:6739-6761: the result of the merge is dropped;
   _worker_proxy_recv_system_cmd_resources, 6763-6797.  A_udev: _on_ubridge_umonitor_event, 7170-7221.
   A_message: _worker_recv_fn, 6936-6965 with 6832-6934; A_timer: 4427-4430.  One command per worker is modelled; for
   SYSTEM_CMD_UMONITOR it is looked up by the name "c-scan". *)
Definition sys_step (g : reg) (s : sys) (x : action) : outcome sys :=
  let c := s_cmd s in
  match x with
  | A_handler a => if c_armed c && negb (c_ended c) then let! c := handler g c a in Ok (Sys c (s_in s)) else Ok s
  | A_main ok =>
    match c_sent c with
    | [] => Ok s
    | M_Sync :: l => Ok (Sys (emit (with_sent c l) (Merged ok)) (s_in s ++ [W_Sync]))
    | M_Resources :: l => Ok (Sys (with_sent c l) (if ok then s_in s ++ [W_Resources] else s_in s))
    end
  | A_udev => Ok (Sys c (s_in s ++ [W_Umonitor]))
  | A_message =>
    match s_in s with
    | [] => Ok s
    | m :: l =>
      if c_ended c then Ok s
      else
        let c := match m with W_Resources => with_mem c | _ => c end in
        if match m with W_Umonitor => negb (to_main g) | _ => false end then Ok (Sys c l)
        else let! (c, _) := change_state g c C_EXE_SCHED 0 in Ok (Sys c l)
    end
  | A_timer =>
    if c_timer c && negb (c_ended c) then let! (c, _) := change_state g c C_TIM_OUT 0 in Ok (Sys c (s_in s)) else Ok s
  end.
Fixpoint sys_steps (g : reg) (s : sys) (l : list action) : outcome sys :=
  match l with [] => Ok s | x :: l => let! s := sys_step g s x in sys_steps g s l end.
