From Verif Require Import Base Wrk_Model WrkFd_Model WrkFd_Spec WrkFd_Proofs.
Local Open Scope nat_scope.

(* C103. Whatever fails while a worker is made, the caller keeps exactly its descriptors and, if there is a proxy, one end of every wire;
   the worker has the other end of each of them, an internal one beside all the caller had, an external one nothing else. *)
Theorem new_worker_descriptors : forall t k a ty ws t' k' r c, get_new_worker (t, k) a ty ws = (t', k', r, c) ->
  match r with
  | None => same_fds t t'
  | Some mine => holds t' proxy_end k ws mine /\ same_but mine t t' /\ unused t mine /\ distinct mine
  end
  /\ match c with
     | CHILD tw theirs => holds tw worker_end k ws theirs /\ unused t theirs /\ distinct theirs /\ (forall mine, r = Some mine -> forall j, In (Z.of_nat j) mine -> ~ In (Z.of_nat j) theirs)
         /\ match ty with INTERNAL => same_but theirs t tw | EXTERNAL => only theirs tw end
     | _ => True
     end
  /\ (all_well a -> r <> None /\ exists tw theirs, c = CHILD tw theirs).
Proof. exact new_worker_lemma. Qed.
Print Assumptions new_worker_descriptors.
(* Over any sequence of workers made and proxies ended, in any order and with any failures: the live proxies hold their ends, no two of
   them the same descriptor, and all other descriptors are as at the start. *)
Theorem no_descriptor_leaks : forall base k ops t k' live, fdrun (base, k, []) ops = (t, k', live) ->
  Forall (fun p => holds t proxy_end (fst (fst p)) (snd (fst p)) (pfds p)) live /\ distinct (flat_map pfds live) /\ same_but (flat_map pfds live) base t /\ (live = [] -> same_fds base t).
Proof. exact no_leak_lemma. Qed.
Print Assumptions no_descriptor_leaks.

(* C104. The program of an external worker has its wires at the numbers they ask for (others at the number they have, sockets not at all)
   and no other descriptor, provided the caller had these numbers in use. *)
Theorem program_descriptors : forall t k a ws t' k' r tw fds oks,
  get_new_worker (t, k) a EXTERNAL ws = (t', k', r, CHILD tw fds) -> wired ws -> NoDup (targets ws) -> (forall to, In to (targets ws) -> fd_at t to <> None) -> Forall (fun b => b = true) oks ->
  exists tp, run_external tw oks true true ws fds = (tp, true) /\ program_has tp k ws fds
    /\ (forall j, ~ In (Z.of_nat j) fds -> ~ In j (targets ws) -> fd_at tp j = None)
    /\ (forall i w fd to, nth_error ws i = Some w -> nth_error fds i = Some fd -> w_redir w = Some to -> fd_at tp (Z.to_nat fd) = None).
Proof. exact external_lemma. Qed.
Print Assumptions program_descriptors.
(* C104 does not hold for standard streams no wire asks for: the program starts with each of them closed. *)
Theorem program_standard_streams_refuted : forall t k a ws t' k' r tw fds oks,
  get_new_worker (t, k) a EXTERNAL ws = (t', k', r, CHILD tw fds) -> wired ws -> NoDup (targets ws) -> (forall to, In to (targets ws) -> fd_at t to <> None) -> Forall (fun b => b = true) oks ->
  forall j, fd_at t j <> None -> ~ In j (targets ws) -> exists tp, run_external tw oks true true ws fds = (tp, true) /\ fd_at tp j = None.
Proof. exact stdin_lemma. Qed.
Print Assumptions program_standard_streams_refuted.
(* Nor for a wire that happens to have the number it asks for: it is closed. *)
Theorem program_same_number_refuted : forall t w to d, w_type w <> WIRE_NONE -> w_redir w = Some to -> fd_at t to = Some d ->
  exists t', redirect t true w (Z.of_nat to) = (t', Z.of_nat to, true) /\ fd_at t' to = None.
Proof. exact same_number_lemma. Qed.
Print Assumptions program_same_number_refuted.
(* Nor for a socket that cannot be redirected: it is closed, its number left as it was, and the set up goes on. *)
Theorem program_socket_refuted : forall t w to fd, w_type w = WIRE_SOCKET -> w_redir w = Some to -> (0 <= fd)%Z ->
  exists t', redirect t false w fd = (t', Z.of_nat to, true) /\ fd_at t' (Z.to_nat fd) = None /\ forall j, j <> Z.to_nat fd -> fd_at t' j = fd_at t j.
Proof. exact socket_lemma. Qed.
Print Assumptions program_socket_refuted.

(* C105. A process with its three standard streams open becomes a daemon with these on /dev/null and every other descriptor closed. *)
Theorem daemon_descriptors : forall t k max, (forall i, i < 3 -> fd_at t i <> None) ->
  (forall i, i < 3 -> fd_at (become_daemon t k max) i = Some (Desc (File k) false)) /\ (forall i, 3 <= i < max -> fd_at (become_daemon t k max) i = None).
Proof. exact (fun t k max H => conj (proj1 (daemon_lemma t k max) H) (proj1 (proj2 (daemon_lemma t k max)))). Qed.
Print Assumptions daemon_descriptors.
(* C105 does not hold when one of them is closed at the start: the first such is closed in the daemon too, and its number is given to
   the next file or socket opened. *)
Theorem daemon_descriptors_refuted : forall t k max i, i < 3 -> (forall j, j < i -> fd_at t j <> None) -> fd_at t i = None -> fd_at (become_daemon t k max) i = None.
Proof. exact (fun t k max => proj2 (proj2 (daemon_lemma t k max))). Qed.
Print Assumptions daemon_descriptors_refuted.

(* A process with standard streams and one more file, the wires of the LVM module and a socket *)
Definition fd_t : fdtab := [Some (Desc (File 1) false); Some (Desc (File 1) false); Some (Desc (File 1) false); None; Some (Desc (File 2) true)].
Definition fd_ws : list wire := [Wire WIRE_PIPE_TO_PRX (Some 1); Wire WIRE_PIPE_TO_PRX (Some 2); Wire WIRE_SOCKET None].
Definition fd_well : answers := Answers true [] true true true true (fun _ => true) true.
Definition fd_bad : answers := Answers true [true; true; false] true true true true (fun _ => true) true.
Example fd_case : all_well fd_well /\ wired fd_ws /\ NoDup (targets fd_ws) /\ (forall to, In to (targets fd_ws) -> fd_at fd_t to <> None) /\ targets fd_ws = [1; 2]
  /\ (let '(_, _, r, c) := get_new_worker (fd_t, 7) fd_well EXTERNAL fd_ws in
      r = Some [3; 6; 8]%Z /\ match c with
                             | CHILD tw fds => fds = [5; 7; 9]%Z /\ fst (run_external tw [] true true fd_ws fds) =
                                 [None; Some (Desc (PipeWrite 7) false); Some (Desc (PipeWrite 8) false); None; None; None; None; None; None; None]
                             | _ => False end)
  /\ (let '(t', _, r, c) := get_new_worker (fd_t, 7) fd_bad EXTERNAL fd_ws in r = None /\ c = NO_CHILD /\ map (fd_at t') (seq 0 9) = map (fd_at fd_t) (seq 0 9)).
Proof.
  split; [repeat split; constructor|]. split; [repeat constructor; discriminate|]. split; [repeat constructor; intros H; cbn in H; decompose [or] H; try discriminate; contradiction|].
  split; [intros to H; cbn in H; decompose [or] H; try contradiction; subst to; discriminate|]. split; [reflexivity|]. split; vm_compute; repeat split.
Qed.
(* Without standard input and output the program has no standard output *)
Example fd_no_output_case : let t := [None; None; Some (Desc (File 1) false)] in
  match get_new_worker (t, 7) fd_well EXTERNAL fd_ws with (_, _, _, CHILD tw fds) => fds = [1; 4; 6]%Z /\ fd_at (fst (run_external tw [] true true fd_ws fds)) 1 = None | _ => False end.
Proof. vm_compute. repeat split. Qed.
Example fd_run_case :
  let '(t, _, live) := fdrun (fd_t, 0, []) [New fd_well INTERNAL fd_ws; New fd_bad EXTERNAL fd_ws; New fd_well EXTERNAL [Wire WIRE_SOCKET None]; Gone 1] in
  map pfds live = [[5]%Z] /\ fd_at t 5 = Some (Desc (Sock 5 true) true) /\ map (fd_at t) [0; 1; 2; 3; 4; 6; 7; 8; 9; 10] = map (fd_at fd_t) [0; 1; 2; 3; 4; 6; 7; 8; 9; 10].
Proof. vm_compute. repeat split. Qed.
Example fd_daemon_case : become_daemon fd_t 9 8 = [Some (Desc (File 9) false); Some (Desc (File 9) false); Some (Desc (File 9) false); None; None; None; None; None]
  /\ fd_at (become_daemon [None; Some (Desc (File 1) false); Some (Desc (File 1) false)] 9 8) 0 = None.
Proof. split; reflexivity. Qed.
