(* Messages between the main process and a worker (C109), several commands in a worker (C110) and clients that leave (C111). *)
From Verif Require Import Base UbrCmd_Model UbrCmd_Spec UbrCmd_Properties UbrRoute_Model UbrRoute_Spec UbrRoute_Proofs2 UbrRoute_Proofs4 UbrRoute_Proofs5 UbrRoute_Last.
Local Open Scope nat_scope.

(* A client asks for a scan and for the resources on one connection; both are done while the other waits *)
Definition both := [R_accept; R_message true; R_request 0 4 (NUL, NUL); R_request 0 8 (NUL, NUL); R_handler 1 good_answers; R_handler 2 good_answers;
  R_main true; R_main true].
Definition both_done := both ++ [R_message true; R_message true; R_handler 2 good_answers; R_handler 1 good_answers].
Definition traces (s : wsys) := map (fun e => (e_num e, e_name e, c_trace (e_cmd e))) (commands s).
Example both_case : exists s, wrun both_done = Ok s /\ distinct s
  /\ traces s = [(1, B "c-scan", [Ran 1; Exported; Merged true; Responded]); (2, B "c-resource", [Ran 1; Ran 1; Responded; Finished])].
Proof.
  eexists. split; [vm_compute; reflexivity|]. split; [|vm_compute; reflexivity]. vm_compute. constructor; [intros [X|[]]; discriminate X|]. constructor; [intros []|constructor].
Qed.

(* No history of a worker with any connections, requests, failures and order of messages is undefined, and each descriptor passed
   between it and the main process is closed or kept by a connection *)
Theorem messages_defined : forall l, exists s, wrun l = Ok s /\ w_lost s = 0.
Proof. exact messages_lemma. Qed.
Print Assumptions messages_defined.
(* The answer of the main process to a request carries the name that was sent *)
Theorem answer_names_asker : forall nm k fl ok a, 1 <= length nm -> ~ In NUL nm -> ra_reply (proxy_recv (ask k fl nm) ok) = Some a ->
  exists mem closed, worker_recv a = Ok (J_sched nm mem, closed) /\ (m_ext a = true -> closed = true).
Proof. exact answer_names_lemma. Qed.
Print Assumptions answer_names_asker.
Example answer_names_case : 1 <= length (B "c-resource") /\ ~ In NUL (B "c-resource") /\ exists a, ra_reply (proxy_recv (ask M_Resources (NUL, NUL) (B "c-resource")) true) = Some a /\ m_ext a = true.
Proof.
  split; [cbn; lia|]. split; [intros H; cbn in H; decompose [or] H; try discriminate; contradiction|]. eexists. split; vm_compute; reflexivity.
Qed.
(* A descriptor that comes with any other message is neither closed nor kept, in the main process and in a worker *)
Theorem unexpected_descriptor_refuted :
  (forall data ok, header_cat data <> CAT_SYSTEM \/ header_cmd data <> CMD_SYNC -> ra_closed (proxy_recv (Message data true) ok) = false)
  /\ (forall data j closed, worker_recv (Message data true) = Ok (j, closed) -> header_cat data <> CAT_CLIENT -> header_cat data <> CAT_SYSTEM \/ header_cmd data <> CMD_RESOURCES -> closed = false /\ j <> J_conn).
Proof. exact unexpected_lemma. Qed.
Print Assumptions unexpected_descriptor_refuted.
Example unexpected_descriptor_case : worker_recv (Message (m_data msg_umonitor) true) = Ok (J_sched (B "c-scan") false, false) /\ header_cat (m_data msg_umonitor) <> CAT_CLIENT /\ header_cmd (m_data msg_umonitor) <> CMD_RESOURCES.
Proof. split; [reflexivity|]. split; vm_compute; discriminate. Qed.
(* A name without its end is read past the message *)
Theorem unterminated_name_refuted : forall nm, 2 <= length nm -> ~ In NUL nm -> worker_recv (Message (header CAT_SYSTEM CMD_SYNC NUL (NUL, NUL) ++ nm) false) = UB.
Proof. exact unterminated_lemma. Qed.
Print Assumptions unterminated_name_refuted.
Example unterminated_name_case : 2 <= length (B "c-scan") /\ ~ In NUL (B "c-scan").
Proof. split; [cbn; lia|]. intros H; cbn in H; decompose [or] H; try discriminate; contradiction. Qed.

(* With different names each command of a worker does what it could do alone with the main process: all that holds of every run of
   a single command (C62) holds of it *)
Theorem as_if_alone_partial : forall l s e, wrun l = Ok s -> distinct s -> In e (commands s) -> exists l', run (e_reg e) l' = Ok (view e s).
Proof. exact alone_lemma. Qed.
Print Assumptions as_if_alone_partial.
(* Thus an answer is counted once: each command responds, finishes and fails once at most *)
Theorem each_ends_once_partial : forall l s e, wrun l = Ok s -> distinct s -> In e (commands s) ->
  number_of is_responded (c_trace (e_cmd e)) <= 1 /\ number_of is_finished (c_trace (e_cmd e)) <= 1 /\ number_of is_failed (c_trace (e_cmd e)) <= 1.
Proof. exact each_lemma. Qed.
Print Assumptions each_ends_once_partial.
(* An answer resumes the command that asked and leaves all others *)
Theorem answer_resumes_asker_partial : forall l s ok s' n m d, wrun l = Ok s -> distinct s -> w_ended s = false -> w_down s = (Some n, m) :: d -> wstep s (R_message ok) = Ok s' ->
  (exists e, In e (commands s) /\ e_num e = n)
  /\ forall e', In e' (commands s') -> (e_num e' <> n -> In e' (commands s)) /\ (e_num e' = n -> c_state (e_cmd e') = C_EXE_SCHED).
Proof. exact answer_lemma. Qed.
Print Assumptions answer_resumes_asker_partial.
Example answer_resumes_case : exists s m d, wrun both = Ok s /\ distinct s /\ w_ended s = false /\ w_down s = (Some 1, m) :: d.
Proof.
  eexists _, _, _. split; [vm_compute; reflexivity|]. split; [|split; reflexivity]. vm_compute. constructor; [intros [X|[]]; discriminate X|]. constructor; [intros []|constructor].
Qed.
(* Two scans on one connection: what the second exported is merged, but the answer resumes the first, which runs its second stage
   though there was no uevent; the second waits for ever: nothing is on the way *)
Definition two_scans := [R_accept; R_message true; R_request 0 4 (NUL, NUL); R_request 0 4 (NUL, NUL);
  R_handler 1 good_answers; R_main true; R_message true; R_handler 1 good_answers; R_handler 2 good_answers; R_main true; R_message true; R_handler 1 good_answers;
  R_main true; R_message true; R_handler 1 good_answers].
Theorem same_name_refuted : exists s, wrun two_scans = Ok s /\ ~ In R_udev two_scans /\ w_up s = [] /\ w_down s = []
  /\ traces s = [(1, B "c-scan", [Ran 1; Exported; Merged true; Responded; Ran 2; Exported; Merged true; Finished]); (2, B "c-scan", [Ran 1; Exported; Merged true])]
  /\ map (fun e => (c_state (e_cmd e), c_armed (e_cmd e), c_timer (e_cmd e))) (commands s) = [(C_FIN, false, false); (C_EXPBUF_WAIT_ACK, false, false)].
Proof.
  eexists. split; [vm_compute; reflexivity|]. split; [intros H; cbn in H; decompose [or] H; try discriminate; contradiction|]. split; [reflexivity|]. split; [reflexivity|]. split; vm_compute; reflexivity.
Qed.
Print Assumptions same_name_refuted.

(* When its client has left before the response, a command neither runs a second stage nor finishes, whatever happens later *)
Theorem client_left_refuted : forall l s n e l2 s' e', wrun l = Ok s -> In (Alone e) (w_kids s) -> e_num e = n -> e_client e = true -> ~ In Responded (c_trace (e_cmd e)) ->
  wsteps s l2 = Ok s' -> In e' (commands s') -> e_num e' = n ->
  ~ In Responded (c_trace (e_cmd e')) /\ ~ In Finished (c_trace (e_cmd e')) /\ forall k, 2 <= k -> ~ In (Ran k) (c_trace (e_cmd e')).
Proof. exact left_lemma. Qed.
Print Assumptions client_left_refuted.
Definition leaving := [R_accept; R_message true; R_request 0 4 (NUL, NUL); R_handler 1 good_answers; R_close 0 false].
Example client_left_case : exists s e s', wrun leaving = Ok s /\ In (Alone e) (w_kids s) /\ e_client e = true /\ ~ In Responded (c_trace (e_cmd e))
  /\ wsteps s [R_main true; R_message true; R_handler 1 good_answers] = Ok s' /\ traces s' = [(1, B "c-scan", [Ran 1; Exported; Merged true; Failed])] /\ w_ended s' = true.
Proof.
  eexists _, _, _. split; [vm_compute; reflexivity|]. split; [left; reflexivity|]. split; [reflexivity|]. split; [intros [X|[X|[]]]; discriminate X|].
  split; [vm_compute; reflexivity|]. split; vm_compute; reflexivity.
Qed.
(* When it leaves after the response, the scan goes on: the commands of the connection stay in the worker *)
Theorem commands_stay : forall l s k err s', wrun l = Ok s -> wstep s (R_close k err) = Ok s' -> forall e, In e (commands s) <-> In e (commands s').
Proof. exact stay_lemma. Qed.
Print Assumptions commands_stay.
Example commands_stay_case : exists s s', wrun (firstn 6 two_scans ++ [R_message true; R_handler 1 good_answers]) = Ok s /\ wstep s (R_close 0 false) = Ok s' /\ length (commands s') = 2
  /\ exists s2, wsteps s' [R_udev; R_message true; R_handler 1 good_answers] = Ok s2 /\ In (Ran 2) (List.concat (map (fun e => c_trace (e_cmd e)) (commands s2))).
Proof.
  eexists _, _. split; [vm_compute; reflexivity|]. split; [vm_compute; reflexivity|]. split; [reflexivity|]. eexists. split; [vm_compute; reflexivity|]. vm_compute. tauto.
Qed.
