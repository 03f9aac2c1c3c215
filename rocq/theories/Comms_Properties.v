From Verif Require Import Base Comms_Model Comms_Spec Comms_Proofs.
Local Open Scope nat_scope.

(* All goes well with descriptor 7; nothing is open, or a socket of another kind at 3 *)
Definition good : kernel := Kernel (inl 7%Z) None None None.
Definition in_use : kernel := Kernel (inl 7%Z) (Some 98%Z) None None.
Definition other : fds := [(3%Z, Sock SOCK_DGRAM None false None)].
Definition passed : fds := [(3%Z, Sock SOCK_STREAM (Some (unix_address SOCKET_PATH)) true None)].

(* C130 *)
Theorem server_sockets : forall k t path n type, fair k t -> n <= length path ->
  exists t' r, unix_create k t path n type = Ok (t', r) /\ ((r < 0)%Z -> t' = t)
    /\ ((0 <= r)%Z -> 1 <= n < PATH_SIZE /\ a_socket k = inl r
        /\ t' = (r, Sock (base_type type) (Some (unix_address (firstn n path))) (connected_type type) None) :: t).
Proof. exact create_is. Qed.
Print Assumptions server_sockets.
Theorem client_sockets : forall k t path n type, fair k t -> n <= length path ->
  exists t' r, unix_init k t path n type = Ok (t', r) /\ ((r < 0)%Z -> t' = t)
    /\ ((0 <= r)%Z -> 1 <= n < PATH_SIZE /\ a_socket k = inl r
        /\ t' = (r, Sock (base_type type) None false (if connected_type type then Some (unix_address (firstn n path)) else None)) :: t).
Proof. exact init_is. Qed.
Print Assumptions client_sockets.
Theorem addresses_differ : forall p q, unix_address p = unix_address q -> p = q.
Proof. exact address_inj. Qed.
Print Assumptions addresses_differ.
Example sockets_case : fair good other /\ fair in_use other
  /\ unix_create good other SOCKET_PATH SOCKET_PATH_LEN (SOCK_STREAM + SOCK_CLOEXEC)
     = Ok ((7%Z, Sock SOCK_STREAM (Some (unix_address SOCKET_PATH)) true None) :: other, 7%Z)
  /\ unix_create in_use other SOCKET_PATH SOCKET_PATH_LEN SOCK_STREAM = Ok (other, (-98)%Z)
  /\ unix_create good other (repeat NUL 200) 108 SOCK_STREAM = Ok (other, (- EINVAL)%Z)
  /\ connected_type SOCK_STREAM = true /\ connected_type SOCK_SEQPACKET = true /\ connected_type (SOCK_DGRAM + SOCK_NONBLOCK) = false.
Proof.
  unfold fair. cbn [good in_use a_socket a_bind a_listen a_connect other map fst In]. sp; try reflexivity; try lia.
  - intros e [X|[X|X]]; congruence.
  - intros e [X|[X|X]]; [injection X as <-; lia | discriminate | discriminate].
Qed.
Theorem daemon_socket_ready : forall k t l v, fair k t -> (listen_fds t l <> 0%Z -> lookup t 3 <> None) ->
  exists t' x, set_up_socket k t l v = Ok (t', x)
    /\ match x with inl fd => exists s, lookup t' fd = Some s /\ daemon_socket s | inr e => (e < 0)%Z /\ t' = t end.
Proof. exact set_up_is. Qed.
Print Assumptions daemon_socket_ready.
Theorem clients_find_daemon : forall k1 t1 k2 t2 t1' fd t2' fd2 s l v,
  fair k1 t1 -> (listen_fds t1 l <> 0%Z -> lookup t1 3 <> None) -> fair k2 t2 ->
  set_up_socket k1 t1 l v = Ok (t1', inl fd) -> lookup t1' fd = Some s -> client_socket k2 t2 = Ok (t2', fd2) -> (0 <= fd2)%Z ->
  exists c, t2' = (fd2, c) :: t2 /\ k_peer c = k_bound s /\ k_peer c <> None /\ k_listens s = true /\ k_type c = k_type s.
Proof. exact client_meets. Qed.
Print Assumptions clients_find_daemon.
Example daemon_socket_case :
  set_up_socket good [] L_none None = Ok ([(7%Z, Sock SOCK_STREAM (Some (unix_address SOCKET_PATH)) true None)], inl 7%Z)
  /\ set_up_socket good passed (L_count 1) (Some (B "FD_PRELOAD")) = Ok (passed, inl 3%Z)
  /\ set_up_socket good other (L_count 1) (Some (B "FD_PRELOAD")) = Ok (other, inr (- EINVAL)%Z)
  /\ set_up_socket good passed (L_count 1) None = Ok (passed, inr (- ENOKEY)%Z)
  /\ client_socket good [] = Ok ([(7%Z, Sock SOCK_STREAM None false (Some (unix_address SOCKET_PATH)))], 7%Z).
Proof. sp; vm_compute; reflexivity. Qed.
Theorem activation_error_refuted : forall k t l, lookup t 3 = None -> (exists e, l = L_bad e /\ e <> 0%Z) \/ (exists n, l = L_count (S n)) ->
  set_up_socket k t l (Some (B "FD_PRELOAD")) = Ok (t, inl 3%Z).
Proof. exact set_up_bad. Qed.
Print Assumptions activation_error_refuted.

(* C131 *)
Theorem descriptors_arrive : forall fresh b f g l xs, Forall2 (fun fd x => (0 <= fd)%Z /\ file_of f fd = Some x) l xs ->
  exists g' r, recv_all fresh 0 g (send_all f [] l b) (length l) = (g ++ g', [], r) /\ g' = combine r xs /\ length r = length xs.
Proof. exact pass_all. Qed.
Print Assumptions descriptors_arrive.
Example descriptors_arrive_case : let f := [(5%Z, 100); (6%Z, 200)] in
  Forall2 (fun fd x => (0 <= fd)%Z /\ file_of f fd = Some x) [6%Z; 5%Z; 6%Z] [200; 100; 200]
  /\ recv_all (fun i => (10 + Z.of_nat i)%Z) 0 [] (send_all f [] [6%Z; 5%Z; 6%Z] NUL) 3 = ([(10%Z, 200); (11%Z, 100); (12%Z, 200)], [], [10%Z; 11%Z; 12%Z]).
Proof. split; [repeat constructor; cbn; lia | reflexivity]. Qed.
Theorem received_descriptors : forall fresh f q size fails, (forall i, (0 <= fresh i)%Z) -> (forall e, fails = Some e -> (0 < e)%Z) ->
  Forall (fun p => length (p_files p) <= 1) q ->
  let '(f', q', got, fd, r) := comms_recv fresh f q size fails in
  (if (fd =? -1)%Z then f' = f else exists x, f' = f ++ [(fd, x)]) /\ ((r < 0)%Z -> q' = q /\ got = [] /\ f' = f) /\ ((0 <= r)%Z -> r = Z.of_nat (length got))
  /\ ((0 <= r)%Z -> List.concat (map p_data q) = got ++ List.concat (map p_data q')).
Proof. exact recv_reports. Qed.
Print Assumptions received_descriptors.
Example received_descriptors_case : comms_recv (fun i => (10 + Z.of_nat i)%Z) [] [Part (B "ab") [4]; Part (B "c") []] 1 None
  = ([(10%Z, 4)], [Part (B "b") []; Part (B "c") []], B "a", 10%Z, 1%Z).
Proof. reflexivity. Qed.
Theorem descriptor_sent_once : forall f q fd answers, Forall answer_ok answers ->
  match send_fd f q fd answers with
  | (q', Some r) => ((r < 0)%Z -> q' = q) /\ ((0 <= r)%Z -> exists l, q' = q ++ [Part ["255"%char] l]
                      /\ ((0 <= fd)%Z -> exists x, l = [x] /\ file_of f fd = Some x) /\ ((fd < 0)%Z -> l = []))
  | (q', None) => q' = q
  end.
Proof. exact send_fd_is. Qed.
Print Assumptions descriptor_sent_once.
Example descriptor_sent_once_case : send_fd [(5%Z, 100)] [] 5 [inr EAGAIN; inr EINTR; inl 1; inl 1] = ([Part ["255"%char] [100]], Some 0%Z)
  /\ send_fd [(5%Z, 100)] [] 5 [inr EAGAIN; inr 32%Z] = ([], Some (-32)%Z) /\ send_fd [] [] 5 [inl 1] = ([], Some (-9)%Z).
Proof. sp; reflexivity. Qed.
Theorem sent_count_refuted : forall f q data fd n m, snd (comms_send f q data fd (inl n)) = snd (comms_send f q data fd (inl m)).
Proof. exact send_count. Qed.
Print Assumptions sent_count_refuted.
Example sent_count_case : comms_send [] [] (B "abc") (-1) (inl 1) = ([Part (B "a") []], 0%Z) /\ comms_send [] [] (B "abc") (-1) (inl 3) = ([Part (B "abc") []], 0%Z).
Proof. split; reflexivity. Qed.
Theorem two_descriptors_refuted : forall fresh f q data x y l size,
  let '(f', _, _, fd, _) := comms_recv fresh f (Part data (x :: y :: l) :: q) size None in fd = (-1)%Z /\ f' = f ++ [(fresh 0, x); (fresh 1, y)].
Proof. exact recv_two. Qed.
Print Assumptions two_descriptors_refuted.
