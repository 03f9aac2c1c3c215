From Verif Require Import Base Comms_Model.
Local Open Scope nat_scope.

(* Errors are above 0; a new descriptor is at least 0 and was not open before *)
Definition fair (k : kernel) (t : fds) : Prop :=
  match a_socket k with inl fd => (0 <= fd)%Z /\ ~ In fd (map fst t) | inr e => (0 < e)%Z end
  /\ (forall e, a_bind k = Some e \/ a_listen k = Some e \/ a_connect k = Some e -> (0 < e)%Z).
(* The address of a path *)
Definition unix_address (path : bytes) : bytes := AF_UNIX ++ path.
(* The socket on which the daemon waits for clients *)
Definition daemon_socket (s : sock) : Prop :=
  k_type s = SOCK_STREAM /\ k_listens s = true /\ k_bound s = Some (unix_address (NUL :: B "sid-ubridge.socket")).
(* Descriptors are received one by one, each with a byte: the descriptors of the process and the results *)
Fixpoint recv_all (fresh : nat -> Z) (i : nat) (f : files) (q : list part) (n : nat) : files * list part * list Z :=
  match n with
  | O => (f, q, [])
  | S n =>
    let '(f, q, _, fd, _) := comms_recv (fun j => fresh (i + j)) f q 1 None in
    let '(f, q, l) := recv_all fresh (S i) f q n in (f, q, fd :: l)
  end.
Fixpoint send_all (f : files) (q : list part) (l : list Z) (b : ascii) : list part :=
  match l with [] => q | fd :: l => send_all f (fst (comms_send f q [b] fd (inl 1))) l b end.
(* sendmsg of one byte: it is sent, or there is an error *)
Definition answer_ok (a : nat + Z) : Prop := match a with inl n => n = 1 | inr e => (0 < e)%Z end.
