(* The handlers of the main process for uevents and for clients that connect, src/resource/ubr.c, with their event sources (ResEv_Model) and
   the workers they reach.  What the workers do with the messages is in UbrRoute_Model.v. *)
From Verif Require Import Base ResEv_Model WrkLife_Model.
Local Open Scope nat_scope.

(* The messages: a uevent (SYSTEM_CMD_UMONITOR) or a client (MSG_CATEGORY_CLIENT with its connection) *)
Inductive note := NUevent | NClient.
(* The worker proxies with their ids in the order of creation, the event sources of the udev monitor and of the socket, the messages sent
   to workers *)
Record main := Main { m_workers : list (bytes * wstate); m_mon : ev; m_ifc : ev; m_sent : list (bytes * note) }.
(* _init_ubridge, src/resource/ubr.c:7714-7728, with _set_up_ulink, 7456-7465: sources for input *)
Definition started : main := Main [] (create UNLIMITED) (create UNLIMITED) [].

Definition bytes_eqb (a b : bytes) : bool := if list_eq_dec ascii_dec a b then true else false.
(* sid_wrk_ctl_find_worker, src/resource/wrk-ctl.c:1136-1142 *)
Definition find_worker (l : list (bytes * wstate)) (id : bytes) : bool :=
  match id with [] => false | _ => existsb (fun w => bytes_eqb (fst w) id) l end.
(* the first proxy with the id *)
Fixpoint set_state (l : list (bytes * wstate)) (id : bytes) (s : wstate) : list (bytes * wstate) :=
  match l with
  | [] => []
  | (i, t) :: l => if bytes_eqb i id then (i, s) :: l else (i, t) :: set_state l id s
  end.
(* sid_wrk_ctl_chan_send to a worker, src/resource/wrk-ctl.c:1335-1344 with 1289-1306: the proxy is assigned whatever its state; r: what
   the sending returns *)
Definition send (l : list (bytes * wstate)) (id : bytes) (m : note) (r : Z) : list (bytes * wstate) * list (bytes * note) * Z :=
  (set_state l id ASSIGNED, if (r <? 0)%Z then [] else [(id, m)], r).
(* _on_ubridge_umonitor_event, src/resource/ubr.c:7170-7221; recv: a device was received; session: its SID_SESSION_ID *)
Definition on_uevent (l : list (bytes * wstate)) (recv : bool) (session : option bytes) (r : Z) : list (bytes * wstate) * list (bytes * note) * Z :=
  if negb recv then (l, [], (-1)%Z)
  else match session with
       | None => (l, [], (-1)%Z)
       | Some id => if find_worker l id then send l id NUevent r else (l, [], (-1)%Z)
       end.
(* sid_wrk_ctl_get_idle_worker, src/resource/wrk-ctl.c:1116-1134 *)
Definition idle_worker (l : list (bytes * wstate)) : option bytes :=
  match find (fun w => match snd w with IDLE => true | _ => false end) l with Some (i, _) => Some i | None => None end.
(* _get_worker, src/resource/ubr.c:7029-7057, in the main process; made: the uuid was made and the worker created.  A new proxy is in the
   state NEW (src/resource/wrk-ctl.c:1501) *)
Definition get_worker (l : list (bytes * wstate)) (uuid : bytes) (made : bool) : list (bytes * wstate) * option bytes :=
  match idle_worker l with
  | Some i => (l, Some i)
  | None => if made then (l ++ [(uuid, NEW)], Some uuid) else (l, None)
  end.
(* _on_ubridge_interface_event, src/resource/ubr.c:7059-7094 *)
Definition on_client (l : list (bytes * wstate)) (uuid : bytes) (made accepted : bool) (r : Z) : list (bytes * wstate) * list (bytes * note) * Z :=
  match get_worker l uuid made with
  | (l, None) => (l, [], (-1)%Z)
  | (l, Some id) => if negb accepted then (l, [], (-1)%Z) else let '(l, out, r) := send l id NClient r in (l, out, if (r <? 0)%Z then (-1)%Z else r)
  end.
(* What happens.  The sources are dispatched while they are not off; their handlers never change the counters *)
Inductive mact :=
| AUevent (recv : bool) (session : option bytes) (r : Z) | AClient (uuid : bytes) (made accepted : bool) (r : Z)
| AYield (id : bytes) | ATimeout (id : bytes)     (* the worker is told to exit, or is too slow: src/resource/wrk-ctl.c:351-360 and 1465-1486 *)
| AGone (id : bytes).                             (* the worker has ended and its proxy is gone: src/resource/wrk-ctl.c:1390-1429 *)
Definition off (e : ev) : bool := match e_on e with Off => true | _ => false end.
Definition mstep (m : main) (a : mact) : main :=
  match a with
  | AUevent recv session r =>
    if off (m_mon m) then m
    else let '(l, out, z) := on_uevent (m_workers m) recv session r in Main l (dispatch false (m_mon m) true [] z) (m_ifc m) (m_sent m ++ out)
  | AClient uuid made accepted r =>
    if off (m_ifc m) then m
    else let '(l, out, z) := on_client (m_workers m) uuid made accepted r in Main l (m_mon m) (dispatch false (m_ifc m) true [] z) (m_sent m ++ out)
  | AYield id => Main (set_state (m_workers m) id EXITING) (m_mon m) (m_ifc m) (m_sent m)
  | ATimeout id => Main (set_state (m_workers m) id TIMED_OUT) (m_mon m) (m_ifc m) (m_sent m)
  | AGone id => Main (filter (fun w => negb (bytes_eqb (fst w) id)) (m_workers m)) (m_mon m) (m_ifc m) (m_sent m)
  end.
Definition mrun (m : main) (l : list mact) : main := fold_left mstep l m.
