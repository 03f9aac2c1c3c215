(* What the channel properties say, without buffers. *)
From Verif Require Import Base Buf_Model Buf_Spec Wrk_Model.
Local Open Scope N_scope.

(* What one end hands to its channel: data with or without a descriptor, or the wish to end. *)
Inductive sentmsg := SData (d : dataspec) | SYield.

(* The messages of a history, in order; nothing is sent after the descriptor was closed. *)
Fixpoint sent (ops : list lkop) : list sentmsg :=
  match ops with
  | [] => []
  | LSend _ d :: t => SData d :: sent t
  | LYield _ :: t => SYield :: sent t
  | LEvent _ :: t => sent t
  | LClose :: _ => []
  end.

(* What was done at the other end, in order. *)
Fixpoint done (rs : list lkres) : list act :=
  match rs with
  | [] => []
  | LREvent _ a :: t => a ++ done t
  | _ :: t => done t
  end.

(* The lane of the receiving end and what it appends to data. *)
Definition rx_lane (sd : side) (sp : chanspec) : lane := match sd with WORKER => worker_rx sp | PROXY => proxy_rx sp end.
Definition tx_lane (sd : side) (sp : chanspec) : lane := match sd with WORKER => proxy_tx sp | PROXY => worker_tx sp end.
Definition suffix (sd : side) (sp : chanspec) : bytes := match l_suffix (rx_lane sd sp) with Some d => d | None => [] end.

(* What the receiver of a message has to do: call back with the same bytes (plus the agreed suffix) and, on a socket, the same descriptor;
   a proxy ends its worker. *)
Definition response (sd : side) (sp : chanspec) (m : sentmsg) : act :=
  match m with
  | SData d =>
      ACallback (map Some (d_data d ++ suffix sd sp))
        (match s_wire sp, d_ext d with WIRE_SOCKET, Some fd => Some (Z.max (-1) fd) | _, _ => None end)
  | SYield => match sd with PROXY => AExit | WORKER => AUnexpected 1 end
  end.

(* An event during which read does not fail. *)
Definition give (e : evans) : Prop := match ev_rd e with RGive _ => True | RErr _ => False end.
Definition giving (o : lkop) : Prop := match o with LEvent e => give e | _ => False end.

(* The wire leads to this end. *)
Definition leads (sd : side) (sp : chanspec) : Prop :=
  match s_wire sp with WIRE_SOCKET => True | WIRE_PIPE_TO_WRK => sd = WORKER | WIRE_PIPE_TO_PRX => sd = PROXY | WIRE_NONE => False end.
Definition other (sd : side) : side := match sd with PROXY => WORKER | WORKER => PROXY end.

(* Lane parameters: any size and step without limit for sending; for receiving no room beyond the smallest message and
   growth by single bytes, as the defaults are. *)
Definition tx_ok (i : bufinit) : Prop := i = {| isize := 0; istep := 0; ilimit := ilimit i |} \/
  (isize i < 2 ^ 60 /\ 0 < istep i < 2 ^ 60 /\ ilimit i = 0).
Definition rx_ok (i : bufinit) : Prop := i = {| isize := 0; istep := 0; ilimit := ilimit i |} \/ (isize i <= 4 /\ istep i = 1 /\ ilimit i = 0).

Definition transient (e : Z) : Prop := e = EAGAIN \/ e = EINTR.
(* write takes something or is to be repeated. *)
Definition wcalm (a : wrans) : Prop := match a with WTake _ => True | WErr e => transient e end.

(* A system that grants memory, reports nothing but EAGAIN and EINTR, and takes a message in the end; messages and suffix below 4 GiB. *)
Definition send_calm (a : sendans) (n : N) : Prop :=
  sa_ao1 a = true /\ sa_ao2 a = true /\ Forall wcalm (sa_wr a) /\ n <= takes (sa_wr a) /\ Forall transient (sa_fails a).
Definition calm (o : lkop) : Prop :=
  match o with
  | LSend a d => 8 + len (d_data d) < 2 ^ 32 /\ send_calm a (8 + len (d_data d))
  | LYield a => send_calm a 8
  | LEvent e =>
      ev_err e = false /\ ev_ao1 e = true /\ ev_ao2 e = true /\ ev_ao3 e = true /\ Forall transient (ev_fails e) /\
      match ev_rd e with RGive _ => True | RErr e => transient e end
  | LClose => True
  end.

(* Results: every send before the close succeeded, every event returned 0. *)
Definition went_well (r : lkres) : Prop :=
  match r with LRSent r => r = Some 0%Z \/ r = Some (- EBADF)%Z | LREvent r _ => r = Some 0%Z | LRNone => True end.

(* The proxy of an external worker: everything written before the close. *)
Fixpoint fed (ops : list xop) : list sbyte :=
  match ops with
  | [] => []
  | XFeed s :: t => s ++ fed t
  | XEvent _ :: t => fed t
  | XClose :: _ => []
  end.
Definition xcalm (o : xop) : Prop := match o with XEvent e => calm (LEvent e) | _ => True end.
Definition xgiving (o : xop) : Prop := match o with XEvent e => give e | _ => False end.
(* Receive lanes of external workers: any size, growing, no limit. *)
Definition xrx_ok (i : bufinit) : Prop := tx_ok i.
