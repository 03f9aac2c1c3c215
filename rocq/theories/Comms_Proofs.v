From Verif Require Import Base Tok_Model Comms_Model Comms_Spec.
Local Open Scope nat_scope.
Ltac sp := repeat match goal with |- _ /\ _ => split end.

Lemma put_len a o d a' : put_bytes a o d = Ok a' -> length a' = length a.
Proof.
  unfold put_bytes. destruct (_ <=? _) eqn:E; [|discriminate]. apply Nat.leb_le in E. intros X. injection X as <-.
  rewrite !app_length, firstn_length, skipn_length. lia.
Qed.
Lemma addr_init_ok path n : n <= length path -> n < PATH_SIZE ->
  exists a, addr_init path n = Ok (a, PATH_AT + n) /\ firstn (PATH_AT + n) a = unix_address (firstn n path) /\ length a = PATH_AT + PATH_SIZE.
Proof.
  intros L P. unfold addr_init.
  assert (E1 : put_bytes (repeat NUL (PATH_AT + PATH_SIZE)) 0 AF_UNIX = Ok (AF_UNIX ++ repeat NUL PATH_SIZE)) by reflexivity.
  rewrite E1. cbn [obind]. rewrite (proj2 (Nat.leb_le _ _) L).
  assert (LL : length (AF_UNIX ++ repeat NUL PATH_SIZE) = PATH_AT + PATH_SIZE) by (rewrite app_length, repeat_length; reflexivity).
  assert (LF : length (firstn n path) = n) by (rewrite firstn_length; lia).
  unfold put_bytes. rewrite LL, LF. replace (PATH_AT + n <=? PATH_AT + PATH_SIZE) with true by (symmetry; apply Nat.leb_le; lia).
  cbn [obind]. eexists. split; [reflexivity|].
  assert (F0 : firstn PATH_AT (AF_UNIX ++ repeat NUL PATH_SIZE) = AF_UNIX) by reflexivity. rewrite F0. split.
  - rewrite app_assoc, firstn_app. replace (length (AF_UNIX ++ firstn n path)) with (PATH_AT + n) by (rewrite app_length, LF; reflexivity).
    rewrite Nat.sub_diag, firstn_O, app_nil_r. unfold unix_address. apply firstn_all2. rewrite app_length, LF. change (length AF_UNIX) with 2. unfold PATH_AT. lia.
  - rewrite !app_length, LF, skipn_length, LL. change (length AF_UNIX) with 2. unfold PATH_AT. lia.
Qed.
Lemma close_head t fd s : ~ In fd (map fst t) -> close ((fd, s) :: t) fd = t.
Proof.
  intros N. unfold close. cbn [filter fst]. rewrite Z.eqb_refl. cbn [negb].
  induction t as [|[x y] t IH]; [reflexivity|]. cbn [filter fst map] in *.
  destruct (x =? fd)%Z eqn:E; [apply Z.eqb_eq in E; subst; exfalso; apply N; now left|]. cbn [negb]. rewrite IH; [reflexivity|].
  intros I. apply N. now right.
Qed.
Lemma update_head t fd s g : ~ In fd (map fst t) -> update ((fd, s) :: t) fd g = (fd, g s) :: t.
Proof.
  intros N. unfold update. cbn [map fst snd]. rewrite Z.eqb_refl. f_equal.
  induction t as [|[x y] t IH]; [reflexivity|]. cbn [map fst snd] in *.
  destruct (x =? fd)%Z eqn:E; [apply Z.eqb_eq in E; subst; exfalso; apply N; now left|]. rewrite IH; [reflexivity|].
  intros I. apply N. now right.
Qed.
Lemma bounds n : (n =? 0) || (PATH_SIZE <=? n) = false -> 1 <= n < PATH_SIZE.
Proof. intros H. apply orb_false_elim in H as [A B]. apply Nat.eqb_neq in A. apply Nat.leb_gt in B. lia. Qed.

Lemma create_is k t path n type : fair k t -> n <= length path ->
  exists t' r, unix_create k t path n type = Ok (t', r) /\ ((r < 0)%Z -> t' = t)
    /\ ((0 <= r)%Z -> 1 <= n < PATH_SIZE /\ a_socket k = inl r
        /\ t' = (r, Sock (base_type type) (Some (unix_address (firstn n path))) (connected_type type) None) :: t).
Proof.
  intros (F1 & F2) L. unfold unix_create. destruct ((n =? 0) || (PATH_SIZE <=? n)) eqn:E.
  { exists t, (- EINVAL)%Z. sp; [reflexivity | reflexivity |]. intros X. exfalso. unfold EINVAL in X. lia. }
  apply bounds in E. destruct (a_socket k) as [fd|e] eqn:S1.
  2: { exists t, (- e)%Z. sp; [reflexivity | reflexivity | intros; exfalso; lia]. }
  destruct F1 as (P & N). destruct (addr_init_ok path n L ltac:(lia)) as (a & A1 & A2 & A3). cbv zeta. rewrite A1. cbn [obind].
  destruct (a_bind k) as [e|] eqn:B1.
  { exists t, (- e)%Z. rewrite close_head by exact N. specialize (F2 e (or_introl eq_refl)). sp; [reflexivity | reflexivity | intros; exfalso; lia]. }
  rewrite update_head by exact N. cbn [k_type k_bound k_listens k_peer]. destruct (connected_type type) eqn:C.
  - destruct (a_listen k) as [e|] eqn:B2.
    + exists t, (- e)%Z. rewrite close_head by exact N. specialize (F2 e (or_intror (or_introl eq_refl))). sp; [reflexivity | reflexivity | intros; exfalso; lia].
    + eexists _, fd. rewrite update_head by exact N. split; [reflexivity|]. split; [intros; exfalso; lia|]. intros _.
      sp; [lia | lia | reflexivity |]. cbn [k_type k_bound k_listens k_peer]. now rewrite A2.
  - eexists _, fd. split; [reflexivity|]. split; [intros; exfalso; lia|]. intros _. sp; [lia | lia | reflexivity |]. now rewrite A2.
Qed.
Lemma init_is k t path n type : fair k t -> n <= length path ->
  exists t' r, unix_init k t path n type = Ok (t', r) /\ ((r < 0)%Z -> t' = t)
    /\ ((0 <= r)%Z -> 1 <= n < PATH_SIZE /\ a_socket k = inl r
        /\ t' = (r, Sock (base_type type) None false (if connected_type type then Some (unix_address (firstn n path)) else None)) :: t).
Proof.
  intros (F1 & F2) L. unfold unix_init. destruct ((n =? 0) || (PATH_SIZE <=? n)) eqn:E.
  { exists t, (- EINVAL)%Z. sp; [reflexivity | reflexivity |]. intros X. exfalso. unfold EINVAL in X. lia. }
  apply bounds in E. destruct (a_socket k) as [fd|e] eqn:S1.
  2: { exists t, (- e)%Z. sp; [reflexivity | reflexivity | intros; exfalso; lia]. }
  destruct F1 as (P & N). destruct (connected_type type) eqn:C; cbn [negb].
  2: { eexists _, fd. split; [reflexivity|]. split; [intros; exfalso; lia|]. intros _. sp; [lia | lia | reflexivity | reflexivity]. }
  destruct (addr_init_ok path n L ltac:(lia)) as (a & A1 & A2 & A3). rewrite A1. cbn [obind].
  destruct (a_connect k) as [e|] eqn:B1.
  { exists t, (- e)%Z. rewrite close_head by exact N. specialize (F2 e (or_intror (or_intror eq_refl))). sp; [reflexivity | reflexivity | intros; exfalso; lia]. }
  eexists _, fd. rewrite update_head by exact N. split; [reflexivity|]. split; [intros; exfalso; lia|]. intros _. sp; [lia | lia | reflexivity |].
  cbn [k_type k_bound k_listens k_peer]. now rewrite A2.
Qed.
Lemma address_inj p q : unix_address p = unix_address q -> p = q.
Proof. unfold unix_address. intros X. now apply app_inv_head in X. Qed.

Lemma lookup_head t fd s : lookup ((fd, s) :: t) fd = Some s.
Proof. unfold lookup. cbn [find fst]. now rewrite Z.eqb_refl. Qed.
Lemma bytes_eqb_eq a b : bytes_eqb a b = true <-> a = b.
Proof. unfold bytes_eqb. destruct (list_eq_dec ascii_dec a b); split; congruence. Qed.
Lemma set_up_is k t l v : fair k t -> (listen_fds t l <> 0%Z -> lookup t 3 <> None) ->
  exists t' x, set_up_socket k t l v = Ok (t', x)
    /\ match x with inl fd => exists s, lookup t' fd = Some s /\ daemon_socket s | inr e => (e < 0)%Z /\ t' = t end.
Proof.
  intros F O. unfold set_up_socket. destruct (listen_fds t l =? 0)%Z eqn:E; cbn [negb].
  - destruct (create_is k t SOCKET_PATH SOCKET_PATH_LEN (N.lor SOCK_STREAM (N.lor SOCK_NONBLOCK SOCK_CLOEXEC)) F (Nat.le_refl _)) as (t' & r & X & A & B).
    rewrite X. cbn [obind]. destruct (r <? 0)%Z eqn:R.
    + eexists _, _. split; [reflexivity|]. cbv beta iota. split; [lia | apply A; lia].
    + destruct (B ltac:(lia)) as (_ & _ & ->). eexists _, _. split; [reflexivity|]. cbv beta iota. rewrite lookup_head. eexists. split; [reflexivity|].
      unfold daemon_socket. cbn [k_type k_listens k_bound]. sp; reflexivity.
  - apply Z.eqb_neq in E. specialize (O E). destruct v as [v|].
    2: { eexists _, _. split; [reflexivity|]. cbv beta iota. split; [reflexivity | reflexivity]. }
    destruct (bytes_eqb v (B "FD_PRELOAD")); cbn [negb].
    2: { eexists _, _. split; [reflexivity|]. cbv beta iota. split; [reflexivity | reflexivity]. }
    unfold is_socket_unix. destruct (lookup t 3) as [s|] eqn:S3; [|congruence].
    destruct ((k_type s =? SOCK_STREAM)%N && k_listens s && _) eqn:M.
    + change (1 =? 0)%Z with false. cbv iota. eexists _, _. split; [reflexivity|]. cbv beta iota. rewrite S3. exists s. split; [reflexivity|].
      apply andb_prop in M as [M M3]. apply andb_prop in M as [M1 M2]. unfold daemon_socket. sp; [now apply N.eqb_eq | exact M2 |].
      destruct (k_bound s) as [a|]; [|discriminate]. apply bytes_eqb_eq in M3. now rewrite M3.
    + change (0 =? 0)%Z with true. cbv iota. eexists _, _. split; [reflexivity|]. cbv beta iota. split; reflexivity.
Qed.
Lemma set_up_bad k t l : lookup t 3 = None -> (exists e, l = L_bad e /\ e <> 0%Z) \/ (exists n, l = L_count (S n)) ->
  set_up_socket k t l (Some (B "FD_PRELOAD")) = Ok (t, inl 3%Z).
Proof.
  intros N H. unfold set_up_socket.
  assert (E : listen_fds t l <> 0%Z).
  { destruct H as [(e & -> & E)|(n & ->)]; cbn [listen_fds]; [lia|]. cbn [seq forallb]. change (3 + Z.of_nat 0)%Z with 3%Z. rewrite N. discriminate. }
  apply Z.eqb_neq in E. rewrite E. cbn [negb].
  replace (bytes_eqb (B "FD_PRELOAD") (B "FD_PRELOAD")) with true by (symmetry; now apply bytes_eqb_eq). cbn [negb].
  unfold is_socket_unix. rewrite N. reflexivity.
Qed.
Lemma client_meets k1 t1 k2 t2 t1' fd t2' fd2 s l v : fair k1 t1 -> (listen_fds t1 l <> 0%Z -> lookup t1 3 <> None) -> fair k2 t2 ->
  set_up_socket k1 t1 l v = Ok (t1', inl fd) -> lookup t1' fd = Some s -> client_socket k2 t2 = Ok (t2', fd2) -> (0 <= fd2)%Z ->
  exists c, t2' = (fd2, c) :: t2 /\ k_peer c = k_bound s /\ k_peer c <> None /\ k_listens s = true /\ k_type c = k_type s.
Proof.
  intros F1 O F2 S1 L C P. destruct (set_up_is k1 t1 l v F1 O) as (t' & x & X & Y). rewrite S1 in X. injection X as <- <-.
  destruct Y as (s' & Y1 & Y2 & Y3 & Y4). rewrite L in Y1. injection Y1 as <-.
  destruct (init_is k2 t2 SOCKET_PATH SOCKET_PATH_LEN (N.lor SOCK_STREAM SOCK_CLOEXEC) F2 (Nat.le_refl _)) as (t'' & r & X & _ & B).
  unfold client_socket in C. rewrite C in X. injection X as <- <-. destruct (B P) as (_ & _ & ->).
  eexists. split; [reflexivity|]. cbn [k_peer k_type]. rewrite Y2, Y3, Y4. sp; [reflexivity | discriminate | reflexivity | reflexivity].
Qed.

(* Descriptors *)
Lemma send_ok f q b fd x : (0 <= fd)%Z -> file_of f fd = Some x -> comms_send f q [b] fd (inl 1) = (q ++ [Part [b] [x]], 0%Z).
Proof. intros P F. unfold comms_send. replace (-1 <? fd)%Z with true by lia. rewrite F. reflexivity. Qed.
Lemma recv_one fresh f q b x : comms_recv fresh f (Part [b] [x] :: q) 1 None = (f ++ [(fresh 0, x)], q, [b], fresh 0, 1%Z).
Proof. reflexivity. Qed.
Lemma send_all_is f b : forall l xs q, Forall2 (fun fd x => (0 <= fd)%Z /\ file_of f fd = Some x) l xs -> send_all f q l b = q ++ map (fun x => Part [b] [x]) xs.
Proof.
  induction l as [|fd l IH]; intros xs q F; inversion F as [|? x ? xs' (P & G) F']; subst; cbn [send_all map]; [now rewrite app_nil_r|].
  rewrite (send_ok f q b fd x P G). cbn [fst]. rewrite (IH xs' _ F'). now rewrite <- app_assoc.
Qed.
Lemma recv_all_is fresh b : forall xs i f q, recv_all fresh i f (map (fun x => Part [b] [x]) xs ++ q) (length xs)
  = (f ++ combine (map fresh (seq i (length xs))) xs, q, map fresh (seq i (length xs))).
Proof.
  induction xs as [|x xs IH]; intros i f q; cbn [recv_all map app length seq combine]; [now rewrite app_nil_r|].
  rewrite recv_one. rewrite IH. rewrite Nat.add_0_r. now rewrite <- app_assoc.
Qed.
Lemma pass_all fresh b f g l xs : Forall2 (fun fd x => (0 <= fd)%Z /\ file_of f fd = Some x) l xs ->
  exists g' r, recv_all fresh 0 g (send_all f [] l b) (length l) = (g ++ g', [], r) /\ g' = combine r xs /\ length r = length xs.
Proof.
  intros F. rewrite (send_all_is f b l xs [] F). cbn [app].
  assert (L : length l = length xs) by (clear -F; induction F; cbn; congruence). rewrite L.
  pose proof (recv_all_is fresh b xs 0 g []) as R. rewrite app_nil_r in R. rewrite R. eexists _, _. split; [reflexivity|]. split; [reflexivity|].
  now rewrite map_length, seq_length.
Qed.
Lemma send_fd_is f q fd answers : Forall answer_ok answers ->
  match send_fd f q fd answers with
  | (q', Some r) => ((r < 0)%Z -> q' = q) /\ ((0 <= r)%Z -> exists l, q' = q ++ [Part ["255"%char] l]
                      /\ ((0 <= fd)%Z -> exists x, l = [x] /\ file_of f fd = Some x) /\ ((fd < 0)%Z -> l = []))
  | (q', None) => q' = q
  end.
Proof.
  induction answers as [|a l IH]; intros F; cbn [send_fd]; [reflexivity|]. inversion F as [|? ? A F']; subst. specialize (IH F').
  unfold comms_send. destruct (-1 <? fd)%Z eqn:P.
  - destruct (file_of f fd) as [x|] eqn:X; cbn [option_map].
    + destruct a as [n|e]; cbn [answer_ok] in A.
      * subst n. cbn. split; [lia|]. intros _. exists [x]. sp; [reflexivity | intros _; exists x; auto | lia].
      * replace (0 <=? - e)%Z with false by lia. destruct ((- e =? - EAGAIN)%Z || (- e =? - EINTR)%Z); [exact IH|]. split; [reflexivity | lia].
    + change (0 <=? - EBADF)%Z with false. change ((- EBADF =? - EAGAIN)%Z || (- EBADF =? - EINTR)%Z) with false. cbv iota.
      split; [reflexivity | intros Y; unfold EBADF in Y; lia].
  - destruct a as [n|e]; cbn [answer_ok] in A.
    * subst n. cbn. split; [lia|]. intros _. exists []. sp; [reflexivity | lia | reflexivity].
    * replace (0 <=? - e)%Z with false by lia. destruct ((- e =? - EAGAIN)%Z || (- e =? - EINTR)%Z); [exact IH|]. split; [reflexivity | lia].
Qed.
Lemma send_count f q data fd n m : snd (comms_send f q data fd (inl n)) = snd (comms_send f q data fd (inl m)).
Proof. unfold comms_send. destruct (if (-1 <? fd)%Z then _ else _); reflexivity. Qed.
Lemma recv_two fresh f q data x y l size : let '(f', _, _, fd, _) := comms_recv fresh f (Part data (x :: y :: l) :: q) size None in
  fd = (-1)%Z /\ f' = f ++ [(fresh 0, x); (fresh 1, y)].
Proof. cbn. split; reflexivity. Qed.
Lemma recv_reports fresh f q size fails : (forall i, (0 <= fresh i)%Z) -> (forall e, fails = Some e -> (0 < e)%Z) -> Forall (fun p => length (p_files p) <= 1) q ->
  let '(f', q', got, fd, r) := comms_recv fresh f q size fails in
  (if (fd =? -1)%Z then f' = f else exists x, f' = f ++ [(fd, x)]) /\ ((r < 0)%Z -> q' = q /\ got = [] /\ f' = f) /\ ((0 <= r)%Z -> r = Z.of_nat (length got))
  /\ ((0 <= r)%Z -> List.concat (map p_data q) = got ++ List.concat (map p_data q')).
Proof.
  intros FR FE Q. unfold comms_recv. destruct fails as [e|].
  - specialize (FE e eq_refl). cbn. sp; auto; intros; exfalso; lia.
  - destruct q as [|p q]; [cbn; sp; auto; intros; exfalso; lia|]. inversion Q as [|? ? P Q']; subst. destruct p as [d l]. cbn [p_files p_data] in *.
    assert (C : List.concat (map p_data (Part d l :: q)) = firstn size d ++ List.concat (map p_data (match skipn size d with [] => q | rest => Part rest [] :: q end))).
    { cbn [map p_data List.concat]. rewrite <- (firstn_skipn size d) at 1. rewrite <- app_assoc. f_equal. destruct (skipn size d); reflexivity. }
    destruct l as [|x [|y l]]; [| |cbn in P; lia].
    + cbn. rewrite app_nil_r. sp; try reflexivity; intros; try lia. exact C.
    + change (firstn fits [x]) with [x]. change (install fresh [x]) with [(fresh 0, x)]. cbn -[firstn skipn]. specialize (FR 0).
      replace (fresh 0%nat =? -1)%Z with false by lia. sp; [exists x; reflexivity | lia | reflexivity |]. intros _. exact C.
Qed.
