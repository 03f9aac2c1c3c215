(* Unix sockets and descriptors passed through them, src/base/comms.c, and the socket of the daemon, src/resource/ubr.c. *)
From Verif Require Import Base Tok_Model.
Local Open Scope nat_scope.

Definition EBADF : Z := 9.
Definition ENOKEY : Z := 126.
(* Types of sockets and the flags which may be added to them (Linux, x86-64) *)
Definition SOCK_STREAM : N := 1.
Definition SOCK_DGRAM : N := 2.
Definition SOCK_RAW : N := 3.
Definition SOCK_SEQPACKET : N := 5.
Definition SOCK_NONBLOCK : N := 2048.
Definition SOCK_CLOEXEC : N := 524288.

(* sizeof(struct sockaddr_un) with sun_path at 2 and of 108 bytes; AF_UNIX is 1 *)
Definition PATH_SIZE : nat := 108.
Definition PATH_AT : nat := 2.
Definition AF_UNIX : bytes := [ascii_of_N 1; ascii_of_N 0].

(* A socket as the kernel has it: its type without flags, the address it is bound to, whether it listens, and the address it is
   connected to.  The descriptors of the process; others than sockets are left out. *)
Record sock := Sock { k_type : N; k_bound : option bytes; k_listens : bool; k_peer : option bytes }.
Definition fds := list (Z * sock).
Definition lookup (t : fds) (fd : Z) : option sock := option_map snd (find (fun x => (fst x =? fd)%Z) t).
Definition update (t : fds) (fd : Z) (f : sock -> sock) : fds := map (fun x => if (fst x =? fd)%Z then (fst x, f (snd x)) else x) t.
Definition close (t : fds) (fd : Z) : fds := filter (fun x => negb (fst x =? fd)%Z) t.
(* What the kernel answers: socket() a descriptor or an error; the others an error or none *)
Record kernel := Kernel { a_socket : Z + Z; a_bind : option Z; a_listen : option Z; a_connect : option Z }.

(* _comms_unix_addr_init, src/base/comms.c:15-21: the structure and its length; reading more than the path has is UB *)
Definition addr_init (path : bytes) (path_len : nat) : outcome (bytes * nat) :=
  let! addr := put_bytes (repeat NUL (PATH_AT + PATH_SIZE)) 0 AF_UNIX in
  let! addr := if path_len <=? length path then put_bytes addr PATH_AT (firstn path_len path) else UB in
  Ok (addr, PATH_AT + path_len).
(* type & (SOCK_STREAM | SOCK_SEQPACKET) *)
Definition connected_type (type : N) : bool := negb (N.land type (N.lor SOCK_STREAM SOCK_SEQPACKET) =? 0)%N.
Definition base_type (type : N) : N := N.land type 15.

(* sid_comms_unix_create, src/base/comms.c:23-59 *)
Definition unix_create (k : kernel) (t : fds) (path : bytes) (path_len : nat) (type : N) : outcome (fds * Z) :=
  if (path_len =? 0) || (PATH_SIZE <=? path_len) then Ok (t, (- EINVAL)%Z)
  else
    match a_socket k with
    | inr e => Ok (t, (- e)%Z)
    | inl fd =>
      let t := (fd, Sock (base_type type) None false None) :: t in
      let! (addr, len) := addr_init path path_len in
      match a_bind k with
      | Some e => Ok (close t fd, (- e)%Z)
      | None =>
        let t := update t fd (fun s => Sock (k_type s) (Some (firstn len addr)) (k_listens s) (k_peer s)) in
        if connected_type type then
          match a_listen k with
          | Some e => Ok (close t fd, (- e)%Z)
          | None => Ok (update t fd (fun s => Sock (k_type s) (k_bound s) true (k_peer s)), fd)
          end
        else Ok (t, fd)
      end
    end.
(* sid_comms_unix_init, src/base/comms.c:61-93 *)
Definition unix_init (k : kernel) (t : fds) (path : bytes) (path_len : nat) (type : N) : outcome (fds * Z) :=
  if (path_len =? 0) || (PATH_SIZE <=? path_len) then Ok (t, (- EINVAL)%Z)
  else
    match a_socket k with
    | inr e => Ok (t, (- e)%Z)
    | inl fd =>
      let t := (fd, Sock (base_type type) None false None) :: t in
      if negb (connected_type type) then Ok (t, fd)
      else
        let! (addr, len) := addr_init path path_len in
        match a_connect k with
        | Some e => Ok (close t fd, (- e)%Z)
        | None => Ok (update t fd (fun s => Sock (k_type s) (k_bound s) (k_listens s) (Some (firstn len addr))), fd)
        end
    end.

(* A part of a stream as sent by one call of sendmsg, with the open files (by number) it carries *)
Record part := Part { p_data : bytes; p_files : list nat }.
(* The header of ancillary data: length, SOL_SOCKET with SCM_RIGHTS or not, and descriptors *)
Record cmsg := Cmsg { g_len : nat; g_rights : bool; g_fds : list Z }.
Definition CMSG_LEN (n : nat) : nat := 16 + n.
(* CMSG_SPACE(sizeof(int)): the length rounded up to 8, src/base/comms.c:101 and 144 *)
Definition CONTROL_SIZE : nat := 24.

(* Descriptors of a process: the number and the open file *)
Definition files := list (Z * nat).
Definition file_of (f : files) (fd : Z) : option nat := option_map snd (find (fun x => (fst x =? fd)%Z) f).

(* _do_comms_unix_send, src/base/comms.c:95-124, with one buffer (sid_comms_unix_send, 126-131).  The answer of sendmsg is a number of
   bytes, or an error; with a descriptor that is not open the error is EBADF.  The result of the comparison is assigned (120), so what
   was sent is not known to the caller. *)
Definition comms_send (f : files) (q : list part) (data : bytes) (fd : Z) (answer : nat + Z) : list part * Z :=
  let carried := if (-1 <? fd)%Z then option_map (fun x => [x]) (file_of f fd) else Some [] in
  match carried, answer with
  | None, _ => (q, (- EBADF)%Z)
  | _, inr e => (q, (- e)%Z)
  | Some l, inl n => (q ++ [Part (firstn n data) l], 0%Z)
  end.
(* The kernel for recvmsg on a stream: as many descriptors of the part as fit into the control buffer become descriptors of this
   process, at the lowest free numbers, given here by fresh; others are dropped.  What remains of the part carries none. *)
Definition fits : nat := (CONTROL_SIZE - CMSG_LEN 0) / 4.
Definition install (fresh : nat -> Z) (l : list nat) : files := combine (map fresh (seq 0 (length l))) l.
(* _do_comms_unix_recv, src/base/comms.c:138-165, with one buffer of size bytes (sid_comms_unix_recv, 167-172): the descriptors of the
   process, what remains of the stream, the bytes, *fd_received and the result.  The end of the stream gives 0. *)
Definition comms_recv (fresh : nat -> Z) (f : files) (q : list part) (size : nat) (fails : option Z)
  : files * list part * bytes * Z * Z :=
  match fails, q with
  | Some e, _ => (f, q, [], (-1)%Z, (- e)%Z)
  | None, [] => (f, [], [], (-1)%Z, 0%Z)
  | None, p :: q =>
    let new := install fresh (firstn fits (p_files p)) in
    let c := match new with [] => None | _ => Some (Cmsg (CMSG_LEN (4 * length new)) true (map fst new)) end in
    let got := firstn size (p_data p) in
    let q := match skipn size (p_data p) with [] => q | rest => Part rest [] :: q end in
    let fd := match c with
              | Some c => if (g_len c =? CMSG_LEN 4) && g_rights c then hd (-1)%Z (g_fds c) else (-1)%Z
              | None => (-1)%Z
              end in
    (f ++ new, q, got, fd, Z.of_nat (length got))
  end.
(* _send_fd_over_unix_comms, src/resource/ubr.c:5737-5752, with the answers of the calls in turn; None: it still tries *)
Fixpoint send_fd (f : files) (q : list part) (fd : Z) (answers : list (nat + Z)) : list part * option Z :=
  match answers with
  | [] => (q, None)
  | a :: answers =>
    let (q, n) := comms_send f q ["255"%char] fd a in
    if (0 <=? n)%Z then (q, Some n)
    else if (n =? - EAGAIN)%Z || (n =? - EINTR)%Z then send_fd f q fd answers
    else (q, Some n)
  end.

(* SID_IFC_SOCKET_PATH, src/include/iface/ifc-internal.h:29-30: sizeof without the last NUL *)
Definition SOCKET_PATH : bytes := NUL :: B "sid-ubridge.socket".
Definition SOCKET_PATH_LEN : nat := length SOCKET_PATH.
(* sd_listen_fds(1) for the environment: nothing about descriptors for this process, values that cannot be read, or a number of them,
   all of which are marked close-on-exec; EBADF if one is not open *)
Inductive listen_env := L_none | L_bad (e : Z) | L_count (n : nat).
Definition listen_fds (t : fds) (l : listen_env) : Z :=
  match l with
  | L_none => 0
  | L_bad e => (- e)%Z
  | L_count n => if forallb (fun i => match lookup t (3 + Z.of_nat i) with Some _ => true | None => false end) (seq 0 n) then Z.of_nat n else (- EBADF)%Z
  end.
(* sd_is_socket_unix with a type, "listens" and an address: EBADF for a descriptor that is not open *)
Definition bytes_eqb (a b : bytes) : bool := if list_eq_dec ascii_dec a b then true else false.
Definition is_socket_unix (t : fds) (fd : Z) (type : N) (path : bytes) : Z :=
  match lookup t fd with
  | None => (- EBADF)%Z
  | Some s =>
    if (k_type s =? type)%N && k_listens s && match k_bound s with Some a => bytes_eqb a (AF_UNIX ++ path) | None => false end then 1%Z else 0%Z
  end.
(* _set_up_ubridge_socket, src/resource/ubr.c:7237-7272: type_env is the value of SERVICE_ACTIVATION_TYPE.  The descriptor, or the error *)
Definition set_up_socket (k : kernel) (t : fds) (l : listen_env) (type_env : option bytes) : outcome (fds * (Z + Z)) :=
  if negb (listen_fds t l =? 0)%Z then
    match type_env with
    | None => Ok (t, inr (- ENOKEY)%Z)
    | Some v =>
      if negb (bytes_eqb v (B "FD_PRELOAD")) then Ok (t, inr (- EINVAL)%Z)
      else if (is_socket_unix t 3 SOCK_STREAM SOCKET_PATH =? 0)%Z then Ok (t, inr (- EINVAL)%Z)
      else Ok (t, inl 3%Z)
    end
  else
    let! (t, fd) := unix_create k t SOCKET_PATH SOCKET_PATH_LEN (N.lor SOCK_STREAM (N.lor SOCK_NONBLOCK SOCK_CLOEXEC)) in
    Ok (t, if (fd <? 0)%Z then inr fd else inl fd).
(* The connection of a client, src/iface/ifc.c:282 *)
Definition client_socket (k : kernel) (t : fds) : outcome (fds * Z) :=
  unix_init k t SOCKET_PATH SOCKET_PATH_LEN (N.lor SOCK_STREAM SOCK_CLOEXEC).
