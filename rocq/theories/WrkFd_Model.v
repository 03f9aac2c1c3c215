(* File descriptors of channels between worker proxies and workers, src/resource/wrk-ctl.c, and of the daemon, src/daemon/sid.c. *)
From Verif Require Import Base Wrk_Model.
Local Open Scope nat_scope.

(* Kernel: what a descriptor stands for.  A pipe and a pair of sockets get a new number each; File: anything else. *)
Inductive object := PipeRead (k : nat) | PipeWrite (k : nat) | Sock (k : nat) (first : bool) | File (k : nat).
Record desc := Desc { d_obj : object; d_cloexec : bool }.
(* Kernel: the table of a process, by number; numbers behind the end of the list are not in use *)
Definition fdtab := list (option desc).
Definition fd_at (t : fdtab) (i : nat) : option desc := nth i t None.
Fixpoint fd_set (t : fdtab) (i : nat) (v : option desc) : fdtab :=
  match i, t with
  | 0, [] => [v]
  | 0, _ :: t => v :: t
  | S i, [] => None :: fd_set [] i v
  | S i, x :: t => x :: fd_set t i v
  end.
(* Kernel: the lowest number not in use *)
Fixpoint lowest (t : fdtab) : nat := match t with Some _ :: t => S (lowest t) | _ => 0 end.
Definition fd_open (t : fdtab) (d : desc) : fdtab * nat := let i := lowest t in (fd_set t i (Some d), i).
(* Kernel: pipe(2), socketpair(2) with SOCK_CLOEXEC; the first number, then the second *)
Definition sys_pipe (t : fdtab) (k : nat) : fdtab * (nat * nat) :=
  let (t, a) := fd_open t (Desc (PipeRead k) false) in let (t, b) := fd_open t (Desc (PipeWrite k) false) in (t, (a, b)).
Definition sys_socketpair (t : fdtab) (k : nat) : fdtab * (nat * nat) :=
  let (t, a) := fd_open t (Desc (Sock k true) true) in let (t, b) := fd_open t (Desc (Sock k false) true) in (t, (a, b)).
(* Kernel: close(2) and dup2(2); a descriptor made by dup2 survives execve.  None: dup2 fails *)
Definition sys_close (t : fdtab) (fd : Z) : fdtab := if (fd <? 0)%Z then t else fd_set t (Z.to_nat fd) None.
Definition sys_dup2 (t : fdtab) (ok : bool) (fd : Z) (to : nat) : option fdtab :=
  if negb ok || (fd <? 0)%Z then None
  else match fd_at t (Z.to_nat fd) with
       | None => None
       | Some d => if Z.to_nat fd =? to then Some t else Some (fd_set t to (Some (Desc (d_obj d) false)))
       end.
(* Kernel: execve(2) closes what is marked *)
Definition sys_exec (t : fdtab) : fdtab := map (fun o => match o with Some d => if d_cloexec d then None else o | None => None end) t.

(* The state of a process and the number of the next object (one number is left out for a channel without a wire) *)
Definition proc : Type := fdtab * nat.
(* struct sid_wrk_wire_spec, src/include/resource/wrk-ctl.h:51-67: the type and, when ext.used and not below 0, fd_redir *)
Record wire := Wire { w_type : wtype; w_redir : option nat }.

(* _create_channel, src/resource/wrk-ctl.c:124-178; ok: pipe or socketpair succeeds.  The descriptors of proxy and worker; None: failed *)
Definition create_channel (p : proc) (ok : bool) (w : wire) : proc * option (Z * Z) :=
  let (t, k) := p in
  match w_type w with
  | WIRE_NONE => ((t, S k), Some ((-1)%Z, (-1)%Z))
  | WIRE_PIPE_TO_WRK => if ok then let '(t, (a, b)) := sys_pipe t k in ((t, S k), Some (Z.of_nat b, Z.of_nat a)) else (p, None)
  | WIRE_PIPE_TO_PRX => if ok then let '(t, (a, b)) := sys_pipe t k in ((t, S k), Some (Z.of_nat a, Z.of_nat b)) else (p, None)
  | WIRE_SOCKET => if ok then let '(t, (a, b)) := sys_socketpair t k in ((t, S k), Some (Z.of_nat a, Z.of_nat b)) else (p, None)
  end.
(* The loop at src/resource/wrk-ctl.c:210-216 *)
Fixpoint close_pairs (t : fdtab) (l : list (Z * Z)) : fdtab :=
  match l with [] => t | (a, b) :: l => close_pairs (sys_close (sys_close t a) b) l end.
(* The loop at src/resource/wrk-ctl.c:198-202 and what follows; done: the channels made so far, the latest first; oks: which of the
   calls succeed *)
Fixpoint create_loop (p : proc) (oks : list bool) (ws : list wire) (done : list (Z * Z)) : proc * option (list (Z * Z)) :=
  match ws with
  | [] => (p, Some (rev done))
  | w :: ws =>
    let (p, r) := create_channel p (hd true oks) w in
    match r with
    | None => ((close_pairs (fst p) done, snd p), None)
    | Some c => create_loop p (tl oks) ws (c :: done)
    end
  end.
(* _create_channels, src/resource/wrk-ctl.c:180-223; mem: both arrays are allocated *)
Definition create_channels (p : proc) (mem : bool) (oks : list bool) (ws : list wire) : proc * option (list (Z * Z)) :=
  if mem then create_loop p oks ws [] else (p, None).
(* _destroy_channels, src/resource/wrk-ctl.c:704-731: the descriptors *)
Fixpoint destroy_channels (t : fdtab) (l : list (wtype * Z)) : fdtab :=
  match l with
  | [] => t
  | (w, fd) :: l => destroy_channels (match w with WIRE_NONE => t | _ => if (0 <=? fd)%Z then sys_close t fd else t end) l
  end.
(* _close_non_channel_fds, src/resource/wrk-ctl.c:733-785, not under valgrind.  dir: opendir succeeds; cl: closing this number reports
   no error (it is closed anyway).  The directory has an entry for every descriptor, in the order of numbers, also for the one of the
   directory, which closedir closes. *)
Fixpoint close_others (t : fdtab) (keep : nat -> bool) (cl : nat -> bool) (l : list nat) : fdtab * bool :=
  match l with
  | [] => (t, true)
  | fd :: l =>
    match fd_at t fd with
    | None => close_others t keep cl l
    | Some _ => if keep fd then close_others t keep cl l
                else if cl fd then close_others (fd_set t fd None) keep cl l else (fd_set t fd None, false)
    end
  end.
Definition close_non_channel_fds (t : fdtab) (dir : bool) (cl : nat -> bool) (chans : list Z) : fdtab * bool :=
  if dir then
    let (t, d) := fd_open t (Desc (File 0) true) in
    let (t, r) := close_others t (fun fd => (fd =? d) || existsb (fun c => (c =? Z.of_nat fd)%Z) chans) cl (seq 0 (length t)) in
    (fd_set t d None, r)
  else (t, false).

(* What happens outside of this code: memory, the calls for channels, signal masks, fork, creation of the proxy, and for an external
   worker opendir and close, and the texts of argv and envp *)
Record answers := Answers { an_mem : bool; an_calls : list bool; an_mask : bool; an_fork : bool; an_proxy : bool; an_dir : bool; an_close : nat -> bool; an_args : bool }.
(* What is left: the process of the caller with the channels of the proxy, if it was created, and the new process with its
   channels, if any; EXITED: the new process ended by itself *)
Inductive child := NO_CHILD | CHILD (t : fdtab) (chans : list Z) | EXITED.
(* _do_worker_control_get_new_worker, src/resource/wrk-ctl.c:787-949.  The death of the parent right after the fork is left out, as are
   ids, timeouts and signals.  sid_res_create fails only before or in _init_worker_proxy (src/resource/wrk-ctl.c:1488-1540, its
   _setup_channels leaves descriptors of a proxy as they are), which leaves the channels to this function. *)
Definition get_new_worker (p : proc) (a : answers) (ty : wrktype) (ws : list wire) : proc * option (list Z) * child :=
  let (p, r) := create_channels p (an_mem a) (an_calls a) ws in
  match r with
  | None => (p, None, NO_CHILD)
  | Some chans =>
    let (t, k) := p in
    let mine := map fst chans in
    let theirs := map snd chans in
    let both := destroy_channels (destroy_channels t (combine (map w_type ws) mine)) (combine (map w_type ws) theirs) in
    if negb (an_mask a && an_fork a) then (both, k, None, NO_CHILD)
    else
      let worker := destroy_channels t (combine (map w_type ws) mine) in
      let c := match ty with
               | INTERNAL => CHILD worker theirs
               | EXTERNAL => let (w, r) := close_non_channel_fds worker (an_dir a) (an_close a) theirs in
                             if r && an_args a then CHILD w theirs else EXITED
               end in
      let parent := destroy_channels t (combine (map w_type ws) theirs) in
      if an_proxy a then (parent, k, Some mine, c)
      else (destroy_channels parent (combine (map w_type ws) mine), k, None, c)
  end.
(* _destroy_worker_proxy, src/resource/wrk-ctl.c:1542-1550 *)
Definition destroy_proxy (t : fdtab) (ws : list wire) (chans : list Z) : fdtab := destroy_channels t (combine (map w_type ws) chans).

(* The descriptors in _setup_channel of a worker, src/resource/wrk-ctl.c:571-583, 593-605 and 621-633; ok: dup2 succeeds.  None: the
   setup fails *)
Definition redirect (t : fdtab) (ok : bool) (w : wire) (fd : Z) : fdtab * Z * bool :=
  match w_redir w, w_type w with
  | None, _ | _, WIRE_NONE => (t, fd, true)
  | Some to, WIRE_SOCKET =>
    let t := match sys_dup2 t ok fd to with Some t => t | None => t end in (sys_close t fd, Z.of_nat to, true)
  | Some to, _ =>
    match sys_dup2 t ok fd to with
    | None => (t, fd, false)
    | Some t => (sys_close t fd, Z.of_nat to, true)
    end
  end.
(* _setup_channels, src/resource/wrk-ctl.c:665-702, of an external worker; the channels of the result are those of the array, also
   after a failure *)
Fixpoint setup_channels (t : fdtab) (oks : list bool) (ws : list wire) (fds : list Z) : fdtab * list Z * bool :=
  match ws, fds with
  | w :: ws, fd :: fds =>
    let '(t, fd, r) := redirect t (hd true oks) w fd in
    if r then let '(t, l, r) := setup_channels t (tl oks) ws fds in (t, fd :: l, r) else (t, fd :: fds, false)
  | _, _ => (t, fds, true)
  end.
(* _run_external_worker, src/resource/wrk-ctl.c:1004-1056: the table of the program, or, if it is not run, that of the process when
   the function returns.  init: the result of init_cb_spec.fn is not below 0; exec: execve succeeds *)
Definition run_external (t : fdtab) (oks : list bool) (init exec : bool) (ws : list wire) (fds : list Z) : fdtab * bool :=
  let '(t, fds, r) := setup_channels t oks ws fds in
  if r && init && exec then (sys_exec t, true) else (destroy_channels t (combine (map w_type ws) fds), false).

(* _become_daemon, src/daemon/sid.c:51-107, the descriptors from open on: max is sysconf(_SC_OPEN_MAX); k: the object /dev/null opened
   here.  All calls succeed (else the process ends). *)
Fixpoint close_down (t : fdtab) (fds : list nat) : fdtab := match fds with [] => t | fd :: fds => close_down (fd_set t fd None) fds end.
Definition dup_or_same (t : fdtab) (fd to : nat) : fdtab := match sys_dup2 t true (Z.of_nat fd) to with Some t => t | None => t end.
Definition become_daemon (t : fdtab) (k max : nat) : fdtab :=
  let (t, fd) := fd_open t (Desc (File k) false) in
  let t := dup_or_same (dup_or_same (dup_or_same t fd 0) fd 1) fd 2 in
  let t := fd_set t fd None in
  close_down t (rev (seq 3 (max - 3))).
