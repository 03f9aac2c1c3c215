From Verif Require Import Base Wrk_Model WrkFd_Model.
Local Open Scope nat_scope.

(* The ends of a wire: what the proxy and the worker hold of the pipe or the pair of sockets n *)
Definition proxy_end (w : wtype) (n : nat) : option desc :=
  match w with
  | WIRE_NONE => None
  | WIRE_PIPE_TO_WRK => Some (Desc (PipeWrite n) false)
  | WIRE_PIPE_TO_PRX => Some (Desc (PipeRead n) false)
  | WIRE_SOCKET => Some (Desc (Sock n true) true)
  end.
Definition worker_end (w : wtype) (n : nat) : option desc :=
  match w with
  | WIRE_NONE => None
  | WIRE_PIPE_TO_WRK => Some (Desc (PipeRead n) false)
  | WIRE_PIPE_TO_PRX => Some (Desc (PipeWrite n) false)
  | WIRE_SOCKET => Some (Desc (Sock n false) true)
  end.
(* The i-th descriptor stands for its end of the object k + i, each of which no other wire has *)
Definition holds (t : fdtab) (ends : wtype -> nat -> option desc) (k : nat) (ws : list wire) (fds : list Z) : Prop :=
  length fds = length ws
  /\ forall i w fd, nth_error ws i = Some w -> nth_error fds i = Some fd ->
       match ends (w_type w) (k + i) with Some d => (0 <= fd)%Z /\ fd_at t (Z.to_nat fd) = Some d | None => fd = (-1)%Z end.
Definition same_fds (t t' : fdtab) : Prop := forall j, fd_at t' j = fd_at t j.
Definition same_but (fds : list Z) (t t' : fdtab) : Prop := forall j, ~ In (Z.of_nat j) fds -> fd_at t' j = fd_at t j.
Definition unused (t : fdtab) (fds : list Z) : Prop := forall j, In (Z.of_nat j) fds -> fd_at t j = None.
Definition distinct (fds : list Z) : Prop := NoDup (filter (fun fd => (0 <=? fd)%Z) fds).
Definition only (fds : list Z) (t : fdtab) : Prop := forall j, ~ In (Z.of_nat j) fds -> fd_at t j = None.
Definition all_well (a : answers) : Prop :=
  an_mem a = true /\ Forall (fun b => b = true) (an_calls a) /\ an_mask a = true /\ an_fork a = true /\ an_proxy a = true /\ an_dir a = true /\ (forall i, an_close a i = true) /\ an_args a = true.

(* The descriptors of a program: each wire at the number it asks for, else at the number it has; sockets do not survive there *)
Definition program_has (t : fdtab) (k : nat) (ws : list wire) (fds : list Z) : Prop :=
  forall i w fd, nth_error ws i = Some w -> nth_error fds i = Some fd ->
    match w_redir w with
    | Some to => fd_at t to = option_map (fun d => Desc (d_obj d) false) (worker_end (w_type w) (k + i))
    | None => fd_at t (Z.to_nat fd) = if match w_type w with WIRE_SOCKET => true | _ => false end then None else worker_end (w_type w) (k + i)
    end.
Definition targets (ws : list wire) : list nat := flat_map (fun w => match w_redir w with Some to => [to] | None => [] end) ws.
Definition wired (ws : list wire) : Prop := Forall (fun w => w_type w <> WIRE_NONE) ws.

(* Any use by one process: workers are made, proxies end, in any order.  A proxy: the number its wires start with, wires, descriptors *)
Inductive fdop := New (a : answers) (ty : wrktype) (ws : list wire) | Gone (i : nat).
Definition proxy : Type := nat * list wire * list Z.
Definition pfds (p : proxy) : list Z := snd p.
Fixpoint without {A} (l : list A) (i : nat) : list A := match l, i with [], _ => [] | _ :: l, 0 => l | x :: l, S i => x :: without l i end.
Definition fdstep (s : fdtab * nat * list proxy) (o : fdop) : fdtab * nat * list proxy :=
  let '(t, k, live) := s in
  match o with
  | New a ty ws => let '(t', k', r, _) := get_new_worker (t, k) a ty ws in
                   (t', k', match r with Some mine => (k, ws, mine) :: live | None => live end)
  | Gone i => match nth_error live i with Some (_, ws, mine) => (destroy_proxy t ws mine, k, without live i) | None => s end
  end.
Definition fdrun (s : fdtab * nat * list proxy) (ops : list fdop) : fdtab * nat * list proxy := fold_left fdstep ops s.
