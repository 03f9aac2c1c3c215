(* The start and the end of the daemon: src/daemon/sid.c, the signals in src/resource/sid.c, and the loop in src/resource/res.c. *)
From Verif Require Import Base BaseUtil_Model.
Local Open Scope Z_scope.

Definition EXIT_SUCCESS : Z := 0.
Definition EXIT_FAILURE : Z := 1.
Definition ECHILD : Z := 10.
(* What getopt_long gives, src/daemon/sid.c:141-149 *)
Inductive opt := O_foreground | O_journal | O_help | O_verbose | O_version | O_other.
Inductive target := T_standard | T_syslog | T_journal.
(* What is seen from outside.  E_fork: the process that goes on is the child of this one.  E_top: the top resource is made or destroyed. *)
Inductive event :=
| E_help (err : bool) | E_version | E_log (t : target) (verbose : Z) | E_session (ok : bool) | E_forked | E_daemon
| E_top_made | E_top_destroyed | E_loop | E_worker.
(* What the surroundings answer: VERBOSE in the environment; atexit; whether the log is made; fork (twice), setsid; the rest of
   _become_daemon; pthread_atfork; whether the top resource is made; the result of the event loop; whether the worker control is found;
   the result of the worker *)
Record answers := Answers { s_verbose : option bytes; s_atexit : Z; s_log : bool; s_fork1 : Z; s_setsid : Z; s_fork2 : Z; s_files : bool;
                            s_atfork : Z; s_create : bool; s_loop : Z; s_control : bool; s_worker : Z }.

(* The options, src/daemon/sid.c:151-174: an exit status, or verbose, foreground and journal.  verbose is an int; that it overflows
   with 2^31 options is left out. *)
Fixpoint options (l : list opt) (verbose : Z) (foreground journal : bool) : (list event * Z) + (Z * bool * bool) :=
  match l with
  | [] => inr (verbose, foreground, journal)
  | O_foreground :: l => options l verbose true journal
  | O_help :: _ => inl ([E_help false], EXIT_SUCCESS)
  | O_journal :: l => options l verbose foreground true
  | O_verbose :: l => options l (verbose + 1) foreground journal
  | O_version :: _ => inl ([E_version], EXIT_SUCCESS)
  | O_other :: _ => inl ([E_help true], EINVAL)
  end.
Definition INT_MAX : N := 2147483647.
(* _become_daemon, src/daemon/sid.c:51-107: an exit status, or it goes on.  The result of fork: -1, 0 in the child, else the parent.
   What it does to descriptors is in WrkFd_Model. *)
Definition become_daemon (s : answers) : list event * option Z :=
  if s_fork1 s =? -1 then ([], Some EXIT_FAILURE)
  else if negb (s_fork1 s =? 0) then ([E_forked], Some EXIT_SUCCESS)
  else
    let session := [E_session (0 <? s_setsid s)] in
    if s_setsid s =? 0 then (session, Some EXIT_FAILURE)
    else if s_fork2 s =? -1 then (session, Some EXIT_FAILURE)
    else if negb (s_fork2 s =? 0) then (session ++ [E_forked], Some EXIT_SUCCESS)
    else if negb (s_files s) then (session, Some EXIT_FAILURE)
    else (session ++ [E_daemon], None).

(* The references to the top resource, which has no parent: sid_res_ref and sid_res_unref, src/resource/res.c:469-475 and 359-412.  None:
   there is none (or NULL) *)
Definition top := option nat.
Definition ref (t : top) : top := option_map S t.
Definition unref (t : top) : top * list event :=
  match t with
  | None => (None, [])
  | Some (S (S n)) => (Some (S n), [])
  | Some _ => (None, [E_top_destroyed])
  end.
(* sid_res_ev_loop_run, src/resource/res.c:1326-1356 *)
Definition loop_run (t : top) (r : Z) : top * list event * Z :=
  let t := ref t in let (t, e) := unref t in (t, E_loop :: e, r).
Definition status (r : Z) : Z := if r <? 0 then EXIT_FAILURE else EXIT_SUCCESS.
(* main from the creation of the top resource on, src/daemon/sid.c:198-245; r is what pthread_atfork gave.  The worker takes over what
   is below the top resource and destroys it (_worker_init_fn, src/resource/ubr.c:7013-7026; src/resource/wrk-ctl.c:984-986). *)
Definition serve (s : answers) (r : Z) : list event * Z :=
  let t := if s_create s then Some 0%nat else None in
  let made := if s_create s then [E_top_made] else [] in
  match ref t with
  | None => let (_, e) := unref None in (made ++ e, status r)
  | Some n =>
    let '(t, e1, r) := loop_run (Some n) (s_loop s) in
    if r =? - ECHILD then
      if negb (s_control s) then let (_, e2) := unref t in (made ++ e1 ++ e2, status r)
      else
        let (_, e2) := unref t in
        let (_, e3) := unref None in (made ++ e1 ++ E_worker :: e2 ++ e3, status (s_worker s))
    else let (_, e2) := unref t in (made ++ e1 ++ e2, status r)
  end.
(* main, src/daemon/sid.c:131-246 *)
Definition main (l : list opt) (s : answers) : list event * Z :=
  match options l 0 false false with
  | inl x => x
  | inr (verbose, foreground, journal) =>
    let verbose := match env_get_ull (s_verbose s) 0 INT_MAX with (0, Some v) => Z.of_N v | _ => verbose end in
    if s_atexit s <? 0 then ([], EXIT_FAILURE)
    else
      let t := if journal then T_journal else if foreground then T_standard else T_syslog in
      if negb (s_log s) then ([], EXIT_FAILURE)
      else
        let (e1, x) := if foreground then ([], None) else become_daemon s in
        match x with
        | Some x => (E_log t verbose :: e1, x)
        | None =>
          if s_atfork s <? 0 then (E_log t verbose :: e1, EXIT_FAILURE)
          else let (e2, x) := serve s (s_atfork s) in (E_log t verbose :: e1 ++ e2, x)
        end
  end.

(* Signals, by number on Linux *)
Definition SIGHUP : N := 1.
Definition SIGINT : N := 2.
Definition SIGUSR1 : N := 10.
Definition SIGPIPE : N := 13.
Definition SIGTERM : N := 15.
(* _init_sid, src/resource/sid.c:47-52: those which the daemon waits for *)
Definition handled : list N := [SIGTERM; SIGINT; SIGPIPE; SIGHUP; SIGUSR1].
(* The loop: whether it is to end, and how often the database was dumped *)
Record loop := Loop { w_ending : bool; w_dumps : nat }.
(* _on_sid_signal_event, src/resource/sid.c:12-34; bridge: there is a resource of the type ubridge.  A signal not in handled does not get
   here.  After sd_event_exit no more signals are taken. *)
Definition on_signal (bridge : bool) (w : loop) (n : N) : loop :=
  if w_ending w || negb (existsb (N.eqb n) handled) then w
  else if (n =? SIGTERM)%N || (n =? SIGINT)%N then Loop true (w_dumps w)
  else if (n =? SIGPIPE)%N || (n =? SIGHUP)%N then w
  else if (n =? SIGUSR1)%N then Loop (w_ending w) (if bridge then S (w_dumps w) else w_dumps w)
  else w.
