(* Signals of workers: which are blocked in the process that makes a worker and in the worker, and what becomes of the signals sent to a
   worker at any time; src/resource/wrk-ctl.c with src/resource/res.c. *)
From Verif Require Import Base.
Local Open Scope N_scope.

(* Signals, by number on Linux *)
Definition SIGINT : N := 2.
Definition SIGKILL : N := 9.
Definition SIGUSR1 : N := 10.
Definition SIGTERM : N := 15.
Definition SIGSTOP : N := 19.
(* The blocked signals of a process *)
Definition mask := N -> bool.
Definition all_blocked : mask := fun _ => true.

(* What the calls answer in the process that makes a worker: _create_channels, sigfillset, sigprocmask, fork, the creation of the proxy
   and sigprocmask again *)
Record answers := Answers { c_channels : bool; c_fillset : bool; c_block : bool; c_fork : Z; c_proxy : bool; c_restore : bool }.
(* _do_worker_control_get_new_worker in the process that makes the worker, src/resource/wrk-ctl.c:787-949: the mask and the result.  The
   descriptors are in WrkFd_Model. *)
Definition make_worker (m : mask) (s : answers) : mask * Z :=
  if negb (c_channels s) then (m, (-1)%Z)
  else if negb (c_fillset s) then (m, (-1)%Z)
  else if negb (c_block s) then (m, (-1)%Z)
  else
    let r := if (c_fork s <? 0)%Z then (-1)%Z else if c_proxy s then 0%Z else (-1)%Z in
    (if c_restore s then m else all_blocked, r).

(* Where the worker is: P_forked, before prctl; P_asked, before getppid; P_checked, before the loop or the program; P_exited and P_killed,
   it has ended by itself or by a signal *)
Inductive place := P_forked | P_asked | P_checked | P_loop | P_program | P_exited | P_killed.
Inductive wtype := Internal | External.
(* x_pending: signals sent and not taken; x_deathsig: what prctl asked for; x_parent: the parent runs; x_signalfd: what the signalfd takes;
   x_parent_exited: the field of the same name; x_ending: the loop is to end *)
Record proc := Proc { x_place : place; x_blocked : mask; x_pending : list N; x_deathsig : option N; x_parent : bool; x_signalfd : list N;
                      x_parent_exited : bool; x_ending : bool }.
(* Whether prctl succeeds; whether the rest up to the loop or execve does *)
Record setting := Setting { c_type : wtype; c_prctl : bool; c_init : bool }.

(* signal(7): the signals which do not end a process that does not handle them (those which stop it are left out) *)
Definition harmless (n : N) : bool := existsb (N.eqb n) [0; 17; 18; 19; 20; 21; 22; 23; 28].
Definition at_place (p : proc) (x : place) : proc :=
  Proc x (x_blocked p) (x_pending p) (x_deathsig p) (x_parent p) (x_signalfd p) (x_parent_exited p) (x_ending p).
Definition gone (p : proc) : bool := match x_place p with P_exited | P_killed => true | _ => false end.
(* kill(2), signal(7): what a signal does to a process.  The code sets no handlers. *)
Definition send (n : N) (p : proc) : proc :=
  if gone p then p
  else if n =? SIGKILL then at_place p P_killed
  else if (n =? SIGSTOP) || (n =? 0) then p
  else if x_blocked p n then
    if existsb (N.eqb n) (x_pending p) then p
    else Proc (x_place p) (x_blocked p) (x_pending p ++ [n]) (x_deathsig p) (x_parent p) (x_signalfd p) (x_parent_exited p) (x_ending p)
  else if harmless n then p else at_place p P_killed.
(* The parent ends; prctl(2), PR_SET_PDEATHSIG *)
Definition parent_dies (p : proc) : proc :=
  if x_parent p then
    let q := Proc (x_place p) (x_blocked p) (x_pending p) (x_deathsig p) false (x_signalfd p) (x_parent_exited p) (x_ending p) in
    match x_deathsig p with Some n => send n q | None => q end
  else p.
(* Take one pending signal of those which the signalfd takes; which one is first is left out *)
Fixpoint take (fds l : list N) : option (N * list N) :=
  match l with
  | [] => None
  | n :: l => if existsb (N.eqb n) fds then Some (n, l) else match take fds l with Some (k, l) => Some (k, n :: l) | None => None end
  end.
(* _on_worker_signal_event, src/resource/wrk-ctl.c:1441-1463, called by _sd_signal_event_handler, src/resource/res.c:594-621 *)
Definition on_signal (n : N) (p : proc) : proc :=
  if (n =? SIGTERM) || (n =? SIGINT) then
    Proc (x_place p) (x_blocked p) (x_pending p) (x_deathsig p) (x_parent p) (x_signalfd p) (x_parent_exited p) true
  else if n =? SIGUSR1 then
    Proc (x_place p) (x_blocked p) (x_pending p) (x_deathsig p) (x_parent p) (x_signalfd p) true (x_ending p)
  else p.
(* _init_worker, src/resource/wrk-ctl.c:1552-1575: the signals which the worker waits for *)
Definition WORKER_SIGNALS : list N := [SIGTERM; SIGINT; SIGUSR1].
(* The worker goes on: prctl (src/resource/wrk-ctl.c:831-844), getppid (847-853), _run_internal_worker or _run_external_worker (959-1056) with
   sid_res_ev_create_signal (src/resource/res.c:624-681), the loop.  The end of the worker by a message, and the program itself, which is one
   that changes neither its mask nor handlers, are left out. *)
Definition go_on (c : setting) (p : proc) : proc :=
  match x_place p with
  | P_forked =>
    Proc P_asked (x_blocked p) (x_pending p) (if c_prctl c then Some (match c_type c with Internal => SIGUSR1 | External => SIGTERM end) else x_deathsig p)
         (x_parent p) (x_signalfd p) (x_parent_exited p) (x_ending p)
  | P_asked => if x_parent p then at_place p P_checked else let q := send SIGTERM p in if gone q then q else at_place q P_exited
  | P_checked =>
    if negb (c_init c) then at_place p P_exited
    else match c_type c with
         | Internal => Proc P_loop (fun n => x_blocked p n || existsb (N.eqb n) WORKER_SIGNALS) (x_pending p) (x_deathsig p) (x_parent p) WORKER_SIGNALS false false
         | External => at_place p P_program
         end
  | P_loop =>
    if x_ending p then at_place p P_exited
    else match take (x_signalfd p) (x_pending p) with
         | None => p
         | Some (n, l) => on_signal n (Proc (x_place p) (x_blocked p) l (x_deathsig p) (x_parent p) (x_signalfd p) (x_parent_exited p) (x_ending p))
         end
  | _ => p
  end.
(* What happens, in any order *)
Inductive act := A_step | A_parent_dies | A_signal (n : N).
Definition does (c : setting) (p : proc) (a : act) : proc :=
  match a with A_step => go_on c p | A_parent_dies => parent_dies p | A_signal n => send n p end.
(* fork(2): the mask is that of the parent, which has blocked all (src/resource/wrk-ctl.c:815); nothing is pending *)
Definition forked : proc := Proc P_forked all_blocked [] None true [] false false.
Definition run (c : setting) (l : list act) : proc := fold_left (does c) l forked.
(* _on_worker_proxy_timeout_event, src/resource/wrk-ctl.c:1465-1486: the signal sent to the worker *)
Definition timeout (signum : N) : list act := if signum =? 0 then [] else [A_signal signum].
