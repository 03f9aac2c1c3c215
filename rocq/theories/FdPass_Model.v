(* The descriptors that come with messages between main process and worker, and those of connections. *)
From Verif Require Import Base.
Local Open Scope nat_scope.

(* A message: its size, category and system command, and what came with it (ext.used and ext.socket.fd_pass, src/resource/wrk-ctl.c:305-320):
   nothing, no descriptor although one was announced (fd_pass is -1), or one, for which the kernel picks a number *)
Inductive cat := CAT_SYSTEM | CAT_SELF | CAT_CLIENT | CAT_OTHER.
Inductive scmd := CMD_SYNC | CMD_UMONITOR | CMD_RESOURCES | CMD_OTHER.
Inductive ext := E_none | E_absent | E_fd.
Record msg := Msg { g_size : nat; g_cat : cat; g_cmd : scmd; g_ext : ext }.
(* INTERNAL_MSG_HEADER_SIZE, src/resource/ubr.c:498 *)
Definition HEADER : nat := 16.
(* What the functions called answer: the buffer could be made, the result of sending, the size read from the descriptor, the command is found,
   its state could be changed; for connections: the resource, its structure, its event source and its buffer could be made *)
Record answers := Ans { n_buf : bool; n_send : Z; n_read : option N; n_found : bool; n_state : Z; n_cmd : Z; n_res : bool; n_conn : bool; n_io : bool; n_cbuf : bool }.
(* The open descriptors of a process, and those of its connections *)
Record proc := Proc { opn : list nat; con : list nat }.
Definition is_open (t : list nat) (f : nat) : bool := existsb (Nat.eqb f) t.
(* close: of -1 does nothing; of a number that is not open it could hit a descriptor opened later in its place, a distinct outcome *)
Definition close (t : list nat) (o : option nat) : outcome (list nat) :=
  match o with
  | None => Ok t
  | Some f => if is_open t f then Ok (remove Nat.eq_dec f t) else UB
  end.

(* _worker_proxy_recv_system_cmd_sync, src/resource/ubr.c:6739-6760; o is None if ext is not used *)
Definition proxy_sync (t : list nat) (o : option (option nat)) (a : answers) : outcome (list nat * Z) :=
  match o with
  | None => Ok (t, (-1)%Z)
  | Some f => let! t := close t f in Ok (t, n_send a)
  end.
(* _worker_proxy_recv_system_cmd_resources, src/resource/ubr.c:6762-6797: the buffer has a descriptor (memfd), closed by sid_buf_destroy.
   Simplification: sid_res_tree_write gives 0, as it always does (src/resource/res.c:1451-1471). *)
Definition proxy_resources (pick : list nat -> nat) (t : list nat) (a : answers) : outcome (list nat * Z) :=
  if negb (n_buf a) then Ok (t, (-1)%Z) else
  let b := pick t in
  let! t := close (b :: t) (Some b) in Ok (t, n_send a).
(* _worker_proxy_recv_fn, src/resource/ubr.c:6800-6830 *)
Definition proxy_recv (pick : list nat -> nat) (t : list nat) (m : msg) (o : option (option nat)) (a : answers) : outcome (list nat * Z) :=
  if g_size m <? HEADER then Ok (t, (-1)%Z) else
  match g_cat m with
  | CAT_SYSTEM =>
    match g_cmd m with
    | CMD_SYNC => proxy_sync t o a
    | CMD_RESOURCES => proxy_resources pick t a
    | _ => Ok (t, (-1)%Z)
    end
  | _ => Ok (t, (-1)%Z)
  end.
(* INTERNAL_MSG_MAX_FD_DATA_SIZE, src/resource/ubr.c:499 *)
Definition MAX_FD_DATA : N := 67108864.
(* _worker_recv_system_cmd_resources, src/resource/ubr.c:6832-6892; what becomes of the mapping is in CmdMem_Model *)
Definition worker_resources (t : list nat) (m : msg) (o : option (option nat)) (a : answers) : outcome (list nat * Z) :=
  match o with
  | None => Ok (t, (-1)%Z)
  | Some f =>
    let r := match n_read a with
             | None => (-1)%Z
             | Some n => if (n <=? 4)%N then (-1)%Z else if (MAX_FD_DATA <? n)%N then (-1)%Z
                         else if g_size m - HEADER <? 2 then (-1)%Z else if negb (n_found a) then (-1)%Z else n_state a
             end in
    let! t := close t f in Ok (t, r)
  end.
(* sid_res_create with _init_connection, src/resource/ubr.c:6180-6215.  If the resource itself cannot be made, _init_connection is not called
   (src/resource/res.c:264-316).  There is no event source for the descriptor -1. *)
Definition new_connection (s : proc) (f : option nat) (a : answers) : outcome (proc * Z) :=
  if negb (n_res a) then Ok (s, (-1)%Z)
  else if negb (n_conn a) || negb (n_io a) || negb (n_cbuf a) then let! t := close (opn s) f in Ok (Proc t (con s), (-1)%Z)
  else match f with
       | None => let! t := close (opn s) f in Ok (Proc t (con s), (-1)%Z)
       | Some f => Ok (Proc (opn s) (f :: con s), 0%Z)
       end.
(* _destroy_connection, src/resource/ubr.c:6217-6230 *)
Definition end_connection (s : proc) (f : nat) : outcome proc :=
  let! t := close (opn s) (Some f) in Ok (Proc t (remove Nat.eq_dec f (con s))).
(* _worker_recv_fn, src/resource/ubr.c:6936-7011, with _worker_recv_system_cmd_umonitor, 6894-6908, and _worker_recv_system_cmd_sync, 6910-6934 *)
Definition worker_recv (s : proc) (m : msg) (o : option (option nat)) (a : answers) : outcome (proc * Z) :=
  if g_size m <? HEADER then Ok (s, (-1)%Z) else
  match g_cat m with
  | CAT_SYSTEM =>
    match g_cmd m with
    | CMD_SYNC => Ok (s, if g_size m - HEADER <? 2 then (-1)%Z else if negb (n_found a) then (-1)%Z else if (n_state a <? 0)%Z then (-1)%Z else 0%Z)
    | CMD_UMONITOR => Ok (s, if negb (n_found a) then (-1)%Z else if (n_state a <? 0)%Z then (-1)%Z else 0%Z)
    | CMD_RESOURCES => let! (t, r) := worker_resources (opn s) m o a in Ok (Proc t (con s), if (r <? 0)%Z then (-1)%Z else 0%Z)
    | CMD_OTHER => Ok (s, (-1)%Z)
    end
  | CAT_CLIENT => match o with None => Ok (s, (-1)%Z) | Some f => new_connection s f a end
  | CAT_SELF => Ok (s, if (n_cmd a <? 0)%Z then (-1)%Z else 0%Z)
  | CAT_OTHER => Ok (s, 0%Z)
  end.

(* The descriptor arrives (src/resource/wrk-ctl.c:291-320): the kernel picks a number that is not in use *)
Definition arrive (pick : list nat -> nat) (t : list nat) (e : ext) : list nat * option (option nat) :=
  match e with
  | E_none => (t, None)
  | E_absent => (t, Some None)
  | E_fd => (pick t :: t, Some (Some (pick t)))
  end.
(* What happens in a worker: messages, and ends of connections (the i-th) *)
Inductive wop := W_recv (m : msg) (a : answers) | W_end (i : nat).
Definition worker_step (pick : list nat -> nat) (s : proc) (p : wop) : outcome proc :=
  match p with
  | W_recv m a => let (t, o) := arrive pick (opn s) (g_ext m) in let! (s, _) := worker_recv (Proc t (con s)) m o a in Ok s
  | W_end i => match nth_error (con s) i with Some f => end_connection s f | None => Ok s end
  end.
Fixpoint worker_run (pick : list nat -> nat) (s : proc) (l : list wop) : outcome proc :=
  match l with
  | [] => Ok s
  | p :: l => let! s := worker_step pick s p in worker_run pick s l
  end.
(* What happens in the main process *)
Fixpoint proxy_run (pick : list nat -> nat) (t : list nat) (l : list (msg * answers)) : outcome (list nat) :=
  match l with
  | [] => Ok t
  | (m, a) :: l => let (t, o) := arrive pick t (g_ext m) in let! (t, _) := proxy_recv pick t m o a in proxy_run pick t l
  end.
