(* Model of the channels between a worker process and its proxy, src/resource/wrk-ctl.c, with the socket calls of
   src/base/comms.c they use.  Not modelled: forking, redirection of descriptors to a fixed number (fd_redir), logging,
   the callbacks called with what was received (what they are called with is recorded). *)
From Verif Require Import Base Buf_Model.
Local Open Scope N_scope.

(* errno.h *)
Definition EPIPE : Z := 32.
Definition EBADF : Z := 9.

(* worker_channel_cmd_t, src/resource/wrk-ctl.c:29-34. *)
Definition CMD_NOOP : N := 0.
Definition CMD_YIELD : N := 1.
Definition CMD_DATA : N := 2.
Definition CMD_DATA_EXT : N := 3.

(* sid_wrk_wire_type_t, src/include/resource/wrk-ctl.h:44-49. *)
Inductive wtype := WIRE_NONE | WIRE_PIPE_TO_WRK | WIRE_PIPE_TO_PRX | WIRE_SOCKET.
(* sid_wrk_type_t, src/include/resource/wrk-ctl.h:18-21. *)
Inductive wrktype := INTERNAL | EXTERNAL.
(* Who owns this end of the channel: sid_wrk_ctl_detect_worker, src/resource/wrk-ctl.c:1144-1156. *)
Inductive side := PROXY | WORKER.

(* struct sid_wrk_lane_spec, src/include/resource/wrk-ctl.h:101-105, without the callback. *)
Record lane := { l_init : bufinit; l_suffix : option bytes }.
(* struct sid_wrk_chan_spec, src/include/resource/wrk-ctl.h:109-116. *)
Record chanspec := { s_wire : wtype; worker_tx : lane; worker_rx : lane; proxy_tx : lane; proxy_rx : lane }.

(* struct sid_wrk_chan, src/resource/wrk-ctl.c:75-81: the descriptor is the stream of the link below. *)
Record chan := { ch_side : side; ch_spec : chanspec; ch_rx : option lbuf; ch_tx : option lbuf }.
Definition with_rx c b := {| ch_side := ch_side c; ch_spec := ch_spec c; ch_rx := Some b; ch_tx := ch_tx c |}.
Definition with_tx c b := {| ch_side := ch_side c; ch_spec := ch_spec c; ch_rx := ch_rx c; ch_tx := Some b |}.

(* _default_int_wrk_lane_buf_init and _default_ext_wrk_lane_buf_init, src/resource/wrk-ctl.c:469-473. *)
Definition int_init : bufinit := {| isize := 4; istep := 1; ilimit := 0 |}.
Definition ext_init : bufinit := {| isize := 4096; istep := 4096; ilimit := 0 |}.

(* _get_lane_buf_init, src/resource/wrk-ctl.c:475-482 (a lane is never NULL). *)
Definition lane_init (i dflt : bufinit) : bufinit :=
  if negb (isize i =? 0) || negb (istep i =? 0) then i else dflt.

(* Creation of one buffer of a channel; a refused creation is the error returned. *)
Definition mk (ao want : bool) (m : bufmode) (i : bufinit) : outcome (option lbuf + Z) :=
  if want then
    let! r := linear_create ao m i in
    Ok match r with inl b => inl (Some b) | inr e => inr e end
  else Ok (inl None).

(* _setup_channel, src/resource/wrk-ctl.c:484-663, for a channel without buffers yet: which buffers each end gets, and of
   which kind.  Registration of the event source is assumed to succeed.  [ao1], [ao2]: the system grants the memory. *)
Definition setup_channel (ao1 ao2 : bool) (sd : side) (ty : wrktype) (sp : chanspec) : outcome (chan + Z) :=
  let '(m, i1, i2) :=
    match sd, ty with
    | WORKER, INTERNAL => (PREFIX, lane_init (l_init (worker_tx sp)) int_init, lane_init (l_init (worker_rx sp)) int_init)
    | WORKER, EXTERNAL => (PLAIN, ext_init, ext_init)
    | PROXY, INTERNAL => (PREFIX, lane_init (l_init (proxy_rx sp)) int_init, lane_init (l_init (proxy_tx sp)) int_init)
    | PROXY, EXTERNAL => (PLAIN, lane_init (l_init (proxy_rx sp)) ext_init, lane_init (l_init (proxy_tx sp)) ext_init)
    end in
  let has := match sd, ty with WORKER, EXTERNAL => false | _, _ => true end in
  (* buf1 carries worker to proxy, buf2 proxy to worker *)
  let want1 := match s_wire sp with WIRE_PIPE_TO_PRX | WIRE_SOCKET => has | _ => false end in
  let want2 := match s_wire sp with WIRE_PIPE_TO_WRK | WIRE_SOCKET => has | _ => false end in
  let! buf1 := mk ao1 want1 m i1 in
  match buf1 with
  | inr e => Ok (inr e)
  | inl buf1 =>
      let! buf2 := mk ao2 want2 m i2 in
      match buf2 with
      | inr e => Ok (inr e)
      | inl buf2 =>
          Ok (inl match sd with
                  | PROXY => {| ch_side := sd; ch_spec := sp; ch_rx := buf1; ch_tx := buf2 |}
                  | WORKER => {| ch_side := sd; ch_spec := sp; ch_rx := buf2; ch_tx := buf1 |}
                  end)
      end
  end.

(* What travels: a byte, and with it a descriptor when it was sent as ancillary data (SCM_RIGHTS). *)
Definition sbyte : Type := ascii * option Z.
Definition plain (d : bytes) : list sbyte := map (fun c => (c, None)) d.

(* struct sid_wrk_data_spec, src/include/resource/wrk-ctl.h:72-84: NULL data or a zero size is []; [d_ext] is fd_pass when
   ext.used. *)
Record dataspec := { d_data : bytes; d_ext : option Z }.

(* Little-endian 4 bytes of the command. *)
Definition cmd_bytes (cmd : N) : bytes := le32_bytes cmd.

(* sid_comms_unix_send of one byte in a loop, src/resource/wrk-ctl.c:1244-1260 and src/base/comms.c:95-131: [fails] are the
   errors of sendmsg before it succeeds; a descriptor below 0 is not attached.  Note the success value: the
   comparison is assigned (src/base/comms.c:120), so a success returns 0. *)
Fixpoint unix_send (fails : list Z) (fd : Z) : Z * list sbyte :=
  match fails with
  | [] => (0%Z, [("255"%char, if (-1 <? fd)%Z then Some fd else None)])
  | e :: t => if (e =? EAGAIN)%Z || (e =? EINTR)%Z then unix_send t fd else ((- e)%Z, [])
  end.

(* What the system does while one message is sent: memory for the two additions and the reset, write's and sendmsg's
   answers. *)
Record sendans := { sa_ao1 : bool; sa_ao2 : bool; sa_ao3 : bool; sa_wr : list wrans; sa_fails : list Z }.

(* _chan_buf_send, src/resource/wrk-ctl.c:1207-1266.  [None] as result: the writing still goes on.  A channel without
   transmit buffer dereferences NULL in sid_buf_stat. *)
Definition chan_buf_send (a : sendans) (c : chan) (cmd : N) (d : option dataspec) : outcome (chan * option Z * list sbyte) :=
  match ch_tx c with
  | None => UB
  | Some b =>
      let fin b r out := let (b, _) := sid_buf_reset (sa_ao3 a) b in Ok (with_tx c b, Some r, out) in
      let data := match d with Some d => d_data d | None => [] end in
      let! (b, r, _, _) := match bmode b with
                           | PREFIX => sid_buf_add (sa_ao1 a) b (DBytes (cmd_bytes cmd)) false
                           | PLAIN => Ok (b, 0%Z, None, 0)
                           end in
      if (r <? 0)%Z then fin b (- ENOMEM)%Z []
      else
        let! (b, r, _, _) := (if (length data =? 0)%nat then Ok (b, 0%Z, None, 0)
                              else sid_buf_add (sa_ao2 a) b (DBytes data) false) in
        if (r <? 0)%Z then fin b (- ENOMEM)%Z []
        else
          let! (b, r, out) := write_all lbuf linear_write (sa_wr a) b 0 in
          match r with
          | None => Ok (with_tx c b, None, plain out)
          | Some r =>
              if (r <? 0)%Z then fin b r (plain out)
              else
                match match d with Some d => d_ext d | None => None end, s_wire (ch_spec c) with
                | Some fd, WIRE_SOCKET =>
                    let (r2, o2) := unix_send (sa_fails a) fd in
                    fin b (if (r2 <? 0)%Z then r2 else r) (plain out ++ o2)
                | _, _ => fin b r (plain out)
                end
          end
  end.

(* sid_wrk_ctl_chan_send, src/resource/wrk-ctl.c:1335-1344, after the channel was found. *)
Definition chan_send (a : sendans) (c : chan) (d : dataspec) : outcome (chan * option Z * list sbyte) :=
  chan_buf_send a c (match d_ext d with Some _ => CMD_DATA_EXT | None => CMD_DATA end) (Some d).

(* sid_wrk_ctl_yield_worker, src/resource/wrk-ctl.c:1360-1388, on the first channel that leads to the proxy while the
   parent lives. *)
Definition chan_yield (a : sendans) (c : chan) : outcome (chan * option Z * list sbyte) := chan_buf_send a c CMD_YIELD None.

(* What the system does during one event on the receiving end: EPOLLERR, memory for the read, the suffix and the reset, what
   read answers, and the errors of recvmsg before it succeeds. *)
Record evans := { ev_err : bool; ev_ao1 : bool; ev_ao2 : bool; ev_ao3 : bool; ev_rd : rdans; ev_fails : list Z }.

(* The kernel's side of read(2) on a stream: nothing there yet is EAGAIN, nothing there and the peer gone is the end of
   file, otherwise at least one byte or an error. *)
Definition kernel_answer (closed : bool) (a : rdans) (s : list sbyte) : rdans :=
  match a with
  | RErr e => RErr e
  | RGive k => match s with [] => if closed then RGive 0 else RErr EAGAIN | _ => RGive (N.max 1 k) end
  end.

(* sid_buf_read on the channel's descriptor: descriptors attached to bytes read with read(2) are lost. *)
Definition chan_read (e : evans) (closed : bool) (b : lbuf) (s : list sbyte) : outcome (lbuf * Z * list sbyte) :=
  let! (b, n, rest) := sid_buf_read (ev_ao1 e) (kernel_answer closed (ev_rd e) s) b (map fst s) in
  Ok (b, n, skipn (length s - length rest) s).

(* The recvmsg loop, src/resource/wrk-ctl.c:304-322 and src/base/comms.c:138-172.  Result: code, fd_pass, rest of the stream; None: still
   looping.  The end of the stream counts as received, without descriptor. *)
Fixpoint unix_recv (fails : list Z) (closed : bool) (s : list sbyte) : option (Z * Z * list sbyte) :=
  match fails with
  | e :: t => if (e =? EAGAIN)%Z || (e =? EINTR)%Z then unix_recv t closed s else Some ((- e)%Z, (-1)%Z, s)
  | [] => match s with
          | [] => if closed then Some (0%Z, (-1)%Z, []) else None
          | (_, fd) :: s => Some (1%Z, match fd with Some fd => fd | None => (-1)%Z end, s)
          end
  end.

(* What the receiver learns from one call: nothing yet, a message, the end, an error. *)
Inductive recv :=
| RcvMore
| RcvMsg (cmd : N) (data : list cell) (ext : option Z) (eof : bool)
| RcvEof
| RcvErr (r : Z)
| RcvLoop.

(* _chan_add_rx_data_suffix, src/resource/wrk-ctl.c:225-234. *)
Definition add_suffix (ao : bool) (c : chan) (b : lbuf) : outcome (lbuf * Z) :=
  match l_suffix (match ch_side c with WORKER => worker_rx (ch_spec c) | PROXY => proxy_rx (ch_spec c) end) with
  | None => Ok (b, 0%Z)
  | Some d => let! (b, r, _, _) := sid_buf_add ao b (DBytes d) false in Ok (b, r)
  end.

(* _chan_buf_recv, src/resource/wrk-ctl.c:247-349.  Reading without a receive buffer dereferences NULL; a command read
   from bytes that were never written counts as undefined. *)
Definition chan_buf_recv (e : evans) (closed : bool) (c : chan) (s : list sbyte) : outcome (chan * recv * list sbyte) :=
  if ev_err e then Ok (c, RcvErr (- EPIPE)%Z, s)
  else
    match ch_rx c with
    | None => UB
    | Some b =>
        let! (b, n, s) := chan_read e closed b s in
        if (0 <? n)%Z then
          match bmode b with
          | PLAIN => Ok (with_rx c b, RcvMore, s)
          | PREFIX =>
              let! cpl := linear_is_complete b in
              if negb cpl then Ok (with_rx c b, RcvMore, s)
              else
                let! (b, r) := add_suffix (ev_ao2 e) c b in
                if (r <? 0)%Z then Ok (with_rx c b, RcvErr (- ENOMEM)%Z, s)
                else
                  match sid_buf_get_data_from b 0 with
                  | (b, _, Some (off, n)) =>
                      let! h := load b off 4 in
                      match h with
                      | [Some c0; Some c1; Some c2; Some c3] =>
                          let cmd := le32 c0 c1 c2 c3 in
                          let! d := load b (off + 4) (sub64 n 4) in
                          match cmd =? CMD_DATA_EXT, s_wire (ch_spec c) with
                          | true, WIRE_SOCKET =>
                              match unix_recv (ev_fails e) closed s with
                              | None => Ok (with_rx c b, RcvLoop, s)
                              | Some (r, fd, s) =>
                                  if (r <? 0)%Z then Ok (with_rx c b, RcvErr r, s)
                                  else Ok (with_rx c b, RcvMsg cmd d (Some fd) false, s)
                              end
                          | _, _ => Ok (with_rx c b, RcvMsg cmd d None false, s)
                          end
                      | _ => UB
                      end
                  | _ => UB
                  end
          end
        else if (n <? 0)%Z then
          if (n =? - EAGAIN)%Z || (n =? - EINTR)%Z then Ok (with_rx c b, RcvMore, s)
          else Ok (with_rx c b, RcvErr n, s)
        else
          match bmode b with
          | PLAIN =>
              let! (b, r) := add_suffix (ev_ao2 e) c b in
              if (r <? 0)%Z then Ok (with_rx c b, RcvErr (- ENOMEM)%Z, s)
              else
                match sid_buf_get_data_from b 0 with
                | (b, _, Some (off, n)) =>
                    let! d := load b off n in Ok (with_rx c b, RcvMsg CMD_DATA d None true, s)
                | _ => UB
                end
          | PREFIX => Ok (with_rx c b, RcvEof, s)
          end
    end.

(* What an event makes the owner do. *)
Inductive act :=
| ACallback (data : list cell) (ext : option Z)   (* the callback of the lane is called with this *)
| AExit                                           (* the proxy tells its worker to exit *)
| AUnexpected (cmd : N).                          (* logged as unexpected *)

(* _on_worker_proxy_channel_event, src/resource/wrk-ctl.c:365-420, and _on_worker_channel_event, 422-467.  Result: channel,
   return value ([None]: still in the recvmsg loop), stream, what was done, whether the event source was destroyed.
   A command beyond the name table is read out of bounds. *)
Definition chan_event (e : evans) (closed : bool) (c : chan) (s : list sbyte) : outcome (chan * option Z * list sbyte * list act * bool) :=
  let! (c, r, s) := chan_buf_recv e closed c s in
  let reset c := match ch_rx c with Some b => with_rx c (fst (sid_buf_reset (ev_ao3 e) b)) | None => c end in
  match r with
  | RcvMore => Ok (c, Some 0%Z, s, [], false)
  | RcvLoop => Ok (c, None, s, [], false)
  | RcvErr r => Ok (reset c, Some r, s, [], false)
  | RcvEof => Ok (c, Some 0%Z, s, [], true)
  | RcvMsg cmd d ext eof =>
      let! a := (if (cmd =? CMD_DATA) || (cmd =? CMD_DATA_EXT) then Ok (ACallback d ext)
                 else match ch_side c with
                      | PROXY => if cmd =? CMD_YIELD then Ok AExit else if cmd <? 4 then Ok (AUnexpected cmd) else UB
                      | WORKER => if cmd <? 4 then Ok (AUnexpected cmd) else UB
                      end) in
      Ok (reset c, Some 0%Z, s, [a], eof)
  end.

(* One direction of a channel: the sending end, the receiving end, the bytes on their way, whether the sender closed its
   descriptor, and whether the receiver still listens. *)
Record link := { lk_tx : chan; lk_rx : chan; lk_str : list sbyte; lk_closed : bool; lk_gone : bool }.

(* What may happen to a link, in any order. *)
Inductive lkop :=
| LSend (a : sendans) (d : dataspec)
| LYield (a : sendans)
| LEvent (e : evans)
| LClose.

(* What is seen: the result of a send, or the result of an event and what it did. *)
Inductive lkres := LRSent (r : option Z) | LREvent (r : option Z) (acts : list act) | LRNone.

Definition link_step (l : link) (o : lkop) : outcome (link * lkres) :=
  match o with
  | LSend a d =>
      if lk_closed l then Ok (l, LRSent (Some (- EBADF)%Z))
      else
        let! (c, r, out) := chan_send a (lk_tx l) d in
        Ok ({| lk_tx := c; lk_rx := lk_rx l; lk_str := lk_str l ++ out; lk_closed := false; lk_gone := lk_gone l |}, LRSent r)
  | LYield a =>
      if lk_closed l then Ok (l, LRSent (Some (- EBADF)%Z))
      else
        let! (c, r, out) := chan_yield a (lk_tx l) in
        Ok ({| lk_tx := c; lk_rx := lk_rx l; lk_str := lk_str l ++ out; lk_closed := false; lk_gone := lk_gone l |}, LRSent r)
  | LEvent e =>
      if lk_gone l then Ok (l, LRNone)
      else
        let! (c, r, s, acts, gone) := chan_event e (lk_closed l) (lk_rx l) (lk_str l) in
        Ok ({| lk_tx := lk_tx l; lk_rx := c; lk_str := s; lk_closed := lk_closed l; lk_gone := gone |}, LREvent r acts)
  | LClose => Ok ({| lk_tx := lk_tx l; lk_rx := lk_rx l; lk_str := lk_str l; lk_closed := true; lk_gone := lk_gone l |}, LRNone)
  end.

Fixpoint link_run (l : link) (ops : list lkop) : outcome (link * list lkres) :=
  match ops with
  | [] => Ok (l, [])
  | o :: t => let! (l, r) := link_step l o in let! (l, rs) := link_run l t in Ok (l, r :: rs)
  end.

(* The proxy of an external worker: the worker writes whatever bytes it likes; the proxy's end of the pipe or socket. *)
Record xlink := { x_rx : chan; x_str : list sbyte; x_closed : bool; x_gone : bool }.
Inductive xop := XFeed (s : list sbyte) | XEvent (e : evans) | XClose.
Definition xlink_step (l : xlink) (o : xop) : outcome (xlink * lkres) :=
  match o with
  | XFeed s => Ok (if x_closed l then l else {| x_rx := x_rx l; x_str := x_str l ++ s; x_closed := false; x_gone := x_gone l |}, LRNone)
  | XEvent e =>
      if x_gone l then Ok (l, LRNone)
      else
        let! (c, r, s, acts, gone) := chan_event e (x_closed l) (x_rx l) (x_str l) in
        Ok ({| x_rx := c; x_str := s; x_closed := x_closed l; x_gone := gone |}, LREvent r acts)
  | XClose => Ok ({| x_rx := x_rx l; x_str := x_str l; x_closed := true; x_gone := x_gone l |}, LRNone)
  end.
Fixpoint xlink_run (l : xlink) (ops : list xop) : outcome (xlink * list lkres) :=
  match ops with
  | [] => Ok (l, [])
  | o :: t => let! (l, r) := xlink_step l o in let! (l, rs) := xlink_run l t in Ok (l, r :: rs)
  end.

(* _set_channel_specs, src/resource/wrk-ctl.c:1600-1637, the ids: None as id is NULL.  [inr] the error; [inl] the bytes of the
   copied ids as they are laid out after the specs, and for each spec the offset of its id there.  The allocated
   room for them is [ids_size]; writing beyond is undefined. *)
Fixpoint ids_size (ids : list (option bytes)) : option N :=
  match ids with
  | [] => Some 0
  | None :: _ | Some [] :: _ => None
  | Some d :: t => match ids_size t with Some n => Some (N.of_nat (length d) + 1 + n) | None => None end
  end.
Fixpoint copy_ids (room : N) (pos : N) (ids : list (option bytes)) : outcome (bytes * list N) :=
  match ids with
  | [] => Ok ([], [])
  | None :: _ => UB
  | Some d :: t =>
      if room <? pos + N.of_nat (length d) + 1 then UB
      else
        let! (m, os) := copy_ids room (pos + N.of_nat (length d) + 1) t in
        Ok (d ++ NUL :: m, pos :: os)
  end.
Definition set_channel_specs (ao : bool) (ids : list (option bytes)) : outcome ((bytes * list N) + Z) :=
  match ids_size ids with
  | None => Ok (inr (- EINVAL)%Z)
  | Some n => if negb ao then Ok (inr (- ENOMEM)%Z) else let! r := copy_ids n 0 ids in Ok (inl r)
  end.

(* _get_channel, src/resource/wrk-ctl.c:1268-1280: position of the first channel with that id. *)
Fixpoint get_channel (ids : list bytes) (id : bytes) : option nat :=
  match ids with
  | [] => None
  | d :: t => if list_eq_dec ascii_dec d id then Some O
              else match get_channel t id with Some k => Some (S k) | None => None end
  end.
