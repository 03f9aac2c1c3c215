(* C44, C90: channels between a worker process and its proxy. *)
From Verif Require Import Base Buf_Model Buf_Spec Wrk_Model Wrk_Spec Wrk_Proofs3 Wrk_Proofs4 Wrk_Ids.
Local Open Scope N_scope.

Definition ex_str (s : string) : bytes := list_ascii_of_string s.
Definition ex_lane : lane := {| l_init := {| isize := 0; istep := 0; ilimit := 0 |}; l_suffix := None |}.
Definition ex_suffix : lane := {| l_init := {| isize := 0; istep := 0; ilimit := 0 |}; l_suffix := Some ["000"%char] |}.
Definition ex_spec (w : wtype) (rx : lane) : chanspec :=
  {| s_wire := w; worker_tx := ex_lane; worker_rx := rx; proxy_tx := ex_lane; proxy_rx := ex_lane |}.
Definition ex_send : sendans :=
  {| sa_ao1 := true; sa_ao2 := true; sa_ao3 := true; sa_wr := WTake 3 :: WErr EAGAIN :: repeat (WTake 100) 20; sa_fails := [EINTR] |}.
Definition ex_ev (k : N) : evans :=
  {| ev_err := false; ev_ao1 := true; ev_ao2 := true; ev_ao3 := true; ev_rd := RGive k; ev_fails := [EAGAIN] |}.
Definition ex_data (d : string) (x : option Z) : dataspec := {| d_data := ex_str d; d_ext := x |}.
Definition ex_end (sd : side) (ty : wrktype) (sp : chanspec) : chan :=
  match setup_channel true true sd ty sp with
  | Ok (inl c) => c
  | _ => {| ch_side := sd; ch_spec := sp; ch_rx := None; ch_tx := None |}
  end.
Definition ex_link (sd : side) (sp : chanspec) : link :=
  {| lk_tx := ex_end (other sd) INTERNAL sp; lk_rx := ex_end sd INTERNAL sp; lk_str := []; lk_closed := false; lk_gone := false |}.
Definition ex_done (r : outcome (link * list lkres)) : option (list act * bool) :=
  match r with Ok (l, rs) => Some (done rs, lk_gone l) | UB => None end.

(* C44: whatever is sent over a set up channel, with the kernel splitting and joining bytes as it likes and every call
   repeatedly interrupted, the receiver has at any time been called back for the first so many messages, in order,
   each once, with the same bytes (plus the agreed suffix) and the same descriptor; nothing is on the way exactly when all were. *)
Theorem channel_delivers_partial : forall sd sp ct cr ao1 ao2 ao3 ao4 ops,
  leads sd sp -> tx_ok (l_init (tx_lane sd sp)) -> rx_ok (l_init (rx_lane sd sp)) -> len (suffix sd sp) <= 2 ^ 33 ->
  setup_channel ao1 ao2 (other sd) INTERNAL sp = Ok (inl ct) -> setup_channel ao3 ao4 sd INTERNAL sp = Ok (inl cr) ->
  Forall calm ops ->
  exists l rs, link_run {| lk_tx := ct; lk_rx := cr; lk_str := []; lk_closed := false; lk_gone := false |} ops = Ok (l, rs) /\
    Forall went_well rs /\ exists d todo, sent ops = d ++ todo /\ done rs = map (response sd sp) d /\
    (lk_str l = [] <-> todo = []) /\ (lk_gone l = true -> lk_closed l = true /\ todo = []).
Proof. exact delivers_lemma. Qed.
Print Assumptions channel_delivers_partial.

(* C44: and nothing stays behind: once the receiver has had as many successful reads as bytes were on the way, every message
   was delivered; with one more after the sender closed, the receiver has noticed the end. *)
Theorem channel_delivers_all_partial : forall sd sp ct cr ao1 ao2 ao3 ao4 ops evs,
  leads sd sp -> tx_ok (l_init (tx_lane sd sp)) -> rx_ok (l_init (rx_lane sd sp)) -> len (suffix sd sp) <= 2 ^ 33 ->
  setup_channel ao1 ao2 (other sd) INTERNAL sp = Ok (inl ct) -> setup_channel ao3 ao4 sd INTERNAL sp = Ok (inl cr) ->
  Forall calm ops -> Forall calm evs -> Forall giving evs ->
  exists l rs, link_run {| lk_tx := ct; lk_rx := cr; lk_str := []; lk_closed := false; lk_gone := false |} ops = Ok (l, rs) /\
    ((length (lk_str l) <= length evs)%nat ->
     exists l' rs', link_run {| lk_tx := ct; lk_rx := cr; lk_str := []; lk_closed := false; lk_gone := false |} (ops ++ evs) = Ok (l', rs') /\
       done rs' = map (response sd sp) (sent ops) /\ lk_str l' = [] /\
       (lk_closed l = true -> (length (lk_str l) < length evs)%nat -> lk_gone l' = true)).
Proof. exact finally_lemma. Qed.
Print Assumptions channel_delivers_all_partial.

Definition ex_ops : list lkop :=
  [LSend ex_send (ex_data "ab" (Some 5%Z)); LSend ex_send (ex_data "c" None); LEvent (ex_ev 5); LEvent (ex_ev 100); LEvent (ex_ev 2);
   LSend ex_send (ex_data "" None); LEvent (ex_ev 100); LEvent (ex_ev 100); LEvent (ex_ev 100); LClose; LEvent (ex_ev 100); LEvent (ex_ev 100)].
Example channel_delivers_ex :
  let sp := ex_spec WIRE_SOCKET ex_suffix in
  (leads WORKER sp /\ tx_ok (l_init (tx_lane WORKER sp)) /\ rx_ok (l_init (rx_lane WORKER sp)) /\ len (suffix WORKER sp) <= 2 ^ 33 /\
   setup_channel true true PROXY INTERNAL sp = Ok (inl (ex_end PROXY INTERNAL sp)) /\
   setup_channel true true WORKER INTERNAL sp = Ok (inl (ex_end WORKER INTERNAL sp)) /\ Forall calm ex_ops) /\
  ex_done (link_run (ex_link WORKER sp) ex_ops) =
    Some ([ACallback (map Some (ex_str "ab" ++ ["000"%char])) (Some 5%Z); ACallback (map Some (ex_str "c" ++ ["000"%char])) None;
           ACallback [Some "000"%char] None], true).
Proof.
  split; [|vm_compute; reflexivity].
  split; [exact I|]. split; [left; reflexivity|]. split; [left; reflexivity|]. split; [discriminate|].
  split; [vm_compute; reflexivity|]. split; [vm_compute; reflexivity|].
  assert (S : forall n, n <= 21 -> send_calm ex_send n).
  { intros n L. split; [reflexivity|]. split; [reflexivity|]. split; [constructor; [exact I|constructor; [left; reflexivity|repeat constructor]]|]. split; [change (takes (sa_wr ex_send)) with 21; exact L|]. constructor; [right; reflexivity|constructor]. }
  assert (V : forall k, calm (LEvent (ex_ev k))).
  { intro k. repeat split. constructor; [left; reflexivity|constructor]. }
  unfold ex_ops.
  repeat first [apply Forall_nil | apply Forall_cons; [first [exact I | apply V | (split; [reflexivity|]; apply S; discriminate)]|]].
Qed.

(* C44, refuted for receive lanes with room for more than one message: two short messages that arrive together are never delivered. *)
Theorem channel_joined_messages_refuted :
  ex_done (link_run (ex_link WORKER (ex_spec WIRE_SOCKET {| l_init := {| isize := 64; istep := 1; ilimit := 0 |}; l_suffix := None |}))
    [LSend ex_send (ex_data "ab" None); LSend ex_send (ex_data "c" None); LEvent (ex_ev 100); LEvent (ex_ev 100); LEvent (ex_ev 100); LClose;
     LEvent (ex_ev 100)]) = Some ([], false).
Proof. vm_compute. reflexivity. Qed.
Print Assumptions channel_joined_messages_refuted.

(* C44, refuted with the same lane for a single message with a descriptor: the descriptor's byte is read as part of the message. *)
Theorem channel_descriptor_swallowed_refuted :
  ex_done (link_run (ex_link WORKER (ex_spec WIRE_SOCKET {| l_init := {| isize := 64; istep := 1; ilimit := 0 |}; l_suffix := None |}))
    [LSend ex_send (ex_data "ab" (Some 5%Z)); LEvent (ex_ev 100); LEvent (ex_ev 100); LEvent (ex_ev 100)]) = Some ([], false).
Proof. vm_compute. reflexivity. Qed.
Print Assumptions channel_descriptor_swallowed_refuted.

(* C44, refuted when memory is refused once in the middle of a message: what the sender sent as data is then taken for commands;
   here the proxy ends its worker because of bytes that were data. *)
Theorem channel_data_taken_for_command_refuted :
  ex_done (link_run (ex_link PROXY (ex_spec WIRE_SOCKET ex_lane))
    [LSend ex_send {| d_data := message (cmd_bytes CMD_YIELD); d_ext := None |};
     LEvent {| ev_err := false; ev_ao1 := false; ev_ao2 := true; ev_ao3 := true; ev_rd := RGive 100; ev_fails := [] |};
     LEvent (ex_ev 100)]) = Some ([AExit], false).
Proof. vm_compute. reflexivity. Qed.
Print Assumptions channel_data_taken_for_command_refuted.

(* C44, refuted for a sender that ends between a message and its descriptor: the receiver is called back with descriptor -1. *)
Theorem channel_descriptor_missing_refuted :
  let m := plain (message (cmd_bytes CMD_DATA_EXT ++ ex_str "ab")) in
  match chan_event (ex_ev 100) true (ex_end WORKER INTERNAL (ex_spec WIRE_SOCKET ex_lane)) m with
  | Ok (c, _, s, _, _) => match chan_event (ex_ev 100) true c s with
                          | Ok (_, r, _, acts, _) => Some (r, acts)
                          | UB => None
                          end
  | UB => None
  end = Some (Some 0%Z, [ACallback (map Some (ex_str "ab")) (Some (-1)%Z)]).
Proof. vm_compute. reflexivity. Qed.
Print Assumptions channel_descriptor_missing_refuted.

(* C44, refuted for a peer that does not keep to the protocol: a message without a command is read beyond its end, and a command
   beyond the last one is looked up beyond the table of names. *)
Theorem channel_hostile_message_refuted :
  let c := ex_end PROXY INTERNAL (ex_spec WIRE_SOCKET ex_lane) in
  chan_event (ex_ev 100) false c (plain (message [])) = UB /\ chan_event (ex_ev 100) false c (plain (message (cmd_bytes 4))) = UB.
Proof. split; vm_compute; reflexivity. Qed.
Print Assumptions channel_hostile_message_refuted.

(* C44, refuted for sending against the direction of a pipe: there is no buffer. *)
Theorem channel_wrong_direction_refuted : forall a ao1 ao2 ty sp c d,
  s_wire sp = WIRE_PIPE_TO_PRX -> setup_channel ao1 ao2 PROXY ty sp = Ok (inl c) -> chan_send a c d = UB.
Proof. exact wrong_direction_lemma. Qed.
Print Assumptions channel_wrong_direction_refuted.
Example channel_wrong_direction_ex :
  setup_channel true true PROXY EXTERNAL (ex_spec WIRE_PIPE_TO_PRX ex_lane) = Ok (inl (ex_end PROXY EXTERNAL (ex_spec WIRE_PIPE_TO_PRX ex_lane))).
Proof. vm_compute. reflexivity. Qed.

(* C44: an external worker writes plain bytes: its proxy is called back never before the worker closed its end, at most once, and then with
   all bytes written and the suffix. *)
Theorem external_output_partial : forall ao1 ao2 sp c ops,
  leads PROXY sp -> xrx_ok (l_init (proxy_rx sp)) -> len (suffix PROXY sp) <= 2 ^ 33 ->
  setup_channel ao1 ao2 PROXY EXTERNAL sp = Ok (inl c) -> Forall xcalm ops -> len (map fst (fed ops)) <= 2 ^ 33 ->
  exists l rs, xlink_run {| x_rx := c; x_str := []; x_closed := false; x_gone := false |} ops = Ok (l, rs) /\ Forall went_well rs /\
    done rs = (if x_gone l then [ACallback (map Some (map fst (fed ops) ++ suffix PROXY sp)) None] else []) /\
    (x_gone l = true -> x_closed l = true).
Proof. exact external_lemma. Qed.
Print Assumptions external_output_partial.

(* C44: and after the close, once the proxy has read more often than there were bytes, it was called back. *)
Theorem external_output_all_partial : forall ao1 ao2 sp c ops evs,
  leads PROXY sp -> xrx_ok (l_init (proxy_rx sp)) -> len (suffix PROXY sp) <= 2 ^ 33 ->
  setup_channel ao1 ao2 PROXY EXTERNAL sp = Ok (inl c) -> Forall xcalm ops -> len (map fst (fed ops)) <= 2 ^ 33 ->
  Forall xcalm evs -> Forall xgiving evs -> (length (fed ops) < length evs)%nat ->
  exists l rs, xlink_run {| x_rx := c; x_str := []; x_closed := false; x_gone := false |} (ops ++ XClose :: evs) = Ok (l, rs) /\
    done rs = [ACallback (map Some (map fst (fed ops) ++ suffix PROXY sp)) None] /\ x_gone l = true.
Proof. exact external_end_lemma. Qed.
Print Assumptions external_output_all_partial.

Definition ex_xsp : chanspec :=
  {| s_wire := WIRE_PIPE_TO_PRX; worker_tx := ex_lane; worker_rx := ex_lane; proxy_tx := ex_lane;
     proxy_rx := {| l_init := {| isize := 0; istep := 3; ilimit := 0 |}; l_suffix := Some ["000"%char] |} |}.
Example external_output_ex :
  (leads PROXY ex_xsp /\ xrx_ok (l_init (proxy_rx ex_xsp)) /\
   setup_channel true true PROXY EXTERNAL ex_xsp = Ok (inl (ex_end PROXY EXTERNAL ex_xsp))) /\
  match xlink_run {| x_rx := ex_end PROXY EXTERNAL ex_xsp; x_str := []; x_closed := false; x_gone := false |}
    [XFeed (plain (ex_str "one")); XEvent (ex_ev 2); XEvent (ex_ev 2); XEvent (ex_ev 2); XFeed (plain (ex_str "two")); XClose; XEvent (ex_ev 2);
     XEvent (ex_ev 200); XEvent (ex_ev 1); XEvent (ex_ev 1)] with
  | Ok (l, rs) => Some (done rs, x_gone l)
  | UB => None
  end = Some ([ACallback (map Some (ex_str "onetwo" ++ ["000"%char])) None], true).
Proof.
  split; [|vm_compute; reflexivity]. split; [reflexivity|]. split; [right; repeat split; reflexivity|]. vm_compute; reflexivity.
Qed.

(* C90: ids of channels are copied within the memory that was allocated for them, every copy is the id and its terminating NUL;
   the only refusals are a missing or empty id and refused memory. *)
Theorem channel_ids_copied : forall ao ids,
  match set_channel_specs ao ids with
  | UB => False
  | Ok (inr e) => (e = - EINVAL /\ exists i, In i ids /\ (i = None \/ i = Some [])) \/ (e = - ENOMEM /\ ao = false)
  | Ok (inl (m, os)) =>
      length os = length ids /\ Forall (fun i => exists d, i = Some d /\ d <> []) ids /\
      forall k d, nth_error ids k = Some (Some d) ->
        exists o, nth_error os k = Some o /\ firstn (S (length d)) (skipn (N.to_nat o) m) = d ++ [NUL]
  end%Z.
Proof. exact ids_lemma. Qed.
Print Assumptions channel_ids_copied.
Example channel_ids_copied_ex :
  set_channel_specs true [Some (ex_str "main"); Some (ex_str "x")] =
    Ok (inl (ex_str "main" ++ NUL :: ex_str "x" ++ [NUL], [0; 5])).
Proof. vm_compute. reflexivity. Qed.

(* C90: a channel is looked up as the first one whose id is equal. *)
Theorem channel_found_first : forall ids id,
  match get_channel ids id with
  | Some k => nth_error ids k = Some id /\ (forall j, (j < k)%nat -> nth_error ids j <> Some id)
  | None => ~ In id ids
  end.
Proof. exact get_channel_lemma. Qed.
Print Assumptions channel_found_first.
Example channel_found_first_ex : get_channel [ex_str "a"; ex_str "b"; ex_str "b"] (ex_str "b") = Some 1%nat.
Proof. vm_compute. reflexivity. Qed.
