(* Messages between the main process and a worker with several commands and connections, src/resource/ubr.c. *)
From Verif Require Import Base UbrCmd_Model.
Local Open Scope nat_scope.

(* enum msg_category_t, src/resource/ubr.c:196-200, and system_cmd_t and self_cmd_t, 466-482 *)
Definition CAT_SYSTEM : N := 0.
Definition CAT_SELF : N := 1.
Definition CAT_CLIENT : N := 2.
Definition CMD_SYNC : N := 2.
Definition CMD_UMONITOR : N := 3.
Definition CMD_RESOURCES : N := 4.
Definition SELF_DBDUMP : N := 2.
(* struct internal_msg_header, src/resource/ubr.c:492-498, with struct sid_ifc_msg_header, src/include/iface/ifc-internal.h:18-23: four
   bytes of the category, eight of the status, one of the protocol, one of the command, two of the flags *)
Definition HEADER_SIZE : nat := 16.
Definition header (cat cmd : N) (prot : byte) (flags : byte * byte) : bytes :=
  [ascii_of_N cat; NUL; NUL; NUL] ++ [NUL; NUL; NUL; NUL; NUL; NUL; NUL; NUL] ++ [prot; ascii_of_N cmd; fst flags; snd flags].
Definition header_cat (data : bytes) : N :=
  (byteN (nth 0 data NUL) + 2 ^ 8 * byteN (nth 1 data NUL) + 2 ^ 16 * byteN (nth 2 data NUL) + 2 ^ 24 * byteN (nth 3 data NUL))%N.
Definition header_cmd (data : bytes) : N := byteN (nth 13 data NUL).
(* A message: its bytes and whether a descriptor comes with it (data_spec->ext.used) *)
Record message := Message { m_data : bytes; m_ext : bool }.

(* What the worker sends: _send_out_cmd_expbuf, src/resource/ubr.c:5790-5811, and _cmd_exec_resources, 4572-4591 *)
Definition ask (m : to_main_msg) (flags : byte * byte) (id : bytes) : message :=
  match m with
  | M_Sync => Message (header CAT_SYSTEM CMD_SYNC NUL (NUL, NUL) ++ id ++ [NUL]) true
  | M_Resources => Message (header CAT_SYSTEM CMD_RESOURCES NUL flags ++ id ++ [NUL]) false
  end.
(* What the main process sends of itself: _on_ubridge_interface_event, src/resource/ubr.c:7077-7092, sid_ubr_cmd_dbdump, 7112-7127 (path: empty
   for none; that a path longer than PATH_MAX runs over the buffer, 7102, is left out), _on_ubridge_umonitor_event, 7209-7215 *)
Definition msg_client : message := Message (header CAT_CLIENT 0 NUL (NUL, NUL)) true.
Definition SID_IFC_PROTOCOL : byte := ascii_of_N 2.
Definition msg_dbdump (path : bytes) : message :=
  Message (header CAT_SELF SELF_DBDUMP SID_IFC_PROTOCOL (NUL, NUL) ++ match path with [] => [] | _ => path ++ [NUL] end) false.
Definition msg_umonitor : message := Message (header CAT_SYSTEM CMD_UMONITOR NUL (NUL, NUL)) false.

(* _worker_proxy_recv_fn, src/resource/ubr.c:6800-6830, with 6739-6797: whether a buffer is merged, the answer, and whether the
   descriptor that came is closed.  ok: the tree can be written (6771-6786). *)
Record reaction := Reaction { ra_merge : bool; ra_reply : option message; ra_closed : bool }.
Definition proxy_recv (m : message) (ok : bool) : reaction :=
  if length (m_data m) <? HEADER_SIZE then Reaction false None false
  else if negb (header_cat (m_data m) =? CAT_SYSTEM)%N then Reaction false None false
  else if (header_cmd (m_data m) =? CMD_SYNC)%N then
    if negb (m_ext m) then Reaction false None false else Reaction true (Some (Message (m_data m) false)) true
  else if (header_cmd (m_data m) =? CMD_RESOURCES)%N then
    Reaction false (if ok then Some (Message (m_data m) true) else None) false
  else Reaction false None false.

(* What a worker makes of a message *)
Inductive job :=
| J_none
| J_sched (id : bytes) (mem : bool)  (* the command of that name goes on; with what the main process wrote *)
| J_conn                             (* a connection is made of the descriptor *)
| J_self (cmd : N).                  (* a command of the worker itself *)
(* The name behind the header, as strcmp in _res_match (src/resource/res.c:1024-1028) sees it: reading on past the message is UB *)
Fixpoint c_str (l : bytes) : outcome bytes :=
  match l with
  | [] => UB
  | c :: l => if Ascii.eqb c NUL then Ok [] else let! s := c_str l in Ok (c :: s)
  end.
(* _worker_recv_fn, src/resource/ubr.c:6936-7011, with 6832-6934: the job and whether the descriptor that came is closed.  That the
   size and the contents of the memory passed can be read (6847-6864, 6887-6888) is assumed. *)
Definition SCAN : bytes := B "c-scan".
Definition worker_recv (m : message) : outcome (job * bool) :=
  let data := m_data m in
  if length data <? HEADER_SIZE then Ok (J_none, false)
  else if (header_cat data =? CAT_SYSTEM)%N then
    if (header_cmd data =? CMD_SYNC)%N then
      if length data - HEADER_SIZE <? 2 then Ok (J_none, false)
      else let! id := c_str (skipn HEADER_SIZE data) in Ok (J_sched id false, false)
    else if (header_cmd data =? CMD_UMONITOR)%N then Ok (J_sched SCAN false, false)
    else if (header_cmd data =? CMD_RESOURCES)%N then
      if negb (m_ext m) then Ok (J_none, false)
      else if length data - HEADER_SIZE <? 2 then Ok (J_none, true)
      else let! id := c_str (skipn HEADER_SIZE data) in Ok (J_sched id true, true)
    else Ok (J_none, false)
  else if (header_cat data =? CAT_CLIENT)%N then if m_ext m then Ok (J_conn, false) else Ok (J_none, false)
  else if (header_cat data =? CAT_SELF)%N then Ok (J_self (header_cmd data), false)
  else Ok (J_none, false).

(* _client_cmd_regs, src/resource/ubr.c:5710-5728, without the first, which has no name; exec being NULL is left out.  Numbers past
   the last are in UbrMsg_Model. *)
Definition client_regs : list (bytes * reg) :=
  [(B "c-unknown", reg_version); (B "c-active", reg_version); (B "c-checkpoint", reg_version); (B "c-reply", reg_version); (SCAN, reg_scan);
   (B "c-version", reg_version); (B "c-dbdump", reg_dbdump); (B "c-dbstats", reg_version); (B "c-resource", reg_resources); (B "c-devices", reg_version)].
(* _self_cmd_regs, src/resource/ubr.c:5730-5735 *)
Definition self_reg : bytes * reg := (B "s-dbdump", reg_dbdump).

(* !strcmp *)
Definition name_eqb (a b : bytes) : bool := if list_eq_dec ascii_dec a b then true else false.
(* A command resource: a number standing for its address, its id (sid_res_get_id, the name of its registration), its registration, the
   flags of the request, whether a client asked for it, and its state.  Sent messages are kept in w_up, so c_sent is empty. *)
Record entry := Entry { e_num : nat; e_name : bytes; e_reg : reg; e_flags : byte * byte; e_client : bool; e_cmd : cmd }.
(* A child of the worker resource: a connection with its commands, or a command.  All have SID_RES_PRIO_NORMAL: new children come last
   (_add_res_to_parent_res, src/resource/res.c:221-236). *)
Inductive kid := Conn (k : nat) (l : list entry) | Alone (e : entry).
Definition kid_entries (x : kid) : list entry := match x with Conn _ l => l | Alone e => [e] end.
(* The commands in the order of SID_RES_SEARCH_DFS (_search_down, src/resource/res.c:1045-1075) *)
Definition entries (l : list kid) : list entry := flat_map kid_entries l.
(* A worker and what is on the way.  Each message is kept with the number of the command it is about, None if it is no answer: this is
   for the statements only, no step reads it but to record the merge in the trace of that command. *)
Record wsys := Wsys {
  w_kids : list kid; w_next : nat; w_ended : bool;
  w_up : list (nat * message); w_down : list (option nat * message);
  w_lost : nat (* descriptors received and neither closed nor kept *) }.
Definition set_entry (x : entry) (l : list kid) : list kid :=
  let f e := if e_num e =? e_num x then x else e in
  map (fun k => match k with Conn n l => Conn n (map f l) | Alone e => Alone (f e) end) l.
Definition with_cmd (e : entry) (c : cmd) : entry := Entry (e_num e) (e_name e) (e_reg e) (e_flags e) (e_client e) c.
(* Whether the parent of the command is a connection: the search SID_RES_SEARCH_IMM_ANC, src/resource/ubr.c:5829-5832 and 5869-5872 *)
Definition conn_of (n : nat) (l : list kid) : option nat :=
  match find (fun k => match k with Conn _ l => existsb (fun e => e_num e =? n) l | Alone _ => false end) l with
  | Some (Conn k _) => Some k
  | _ => None
  end.
(* The connection numbered k *)
Definition is_conn (k : nat) (x : kid) : bool := match x with Conn n _ => n =? k | Alone _ => false end.
(* _connection_cleanup, src/resource/ubr.c:4419-4422: sid_res_isolate (src/resource/res.c:1237-1247) moves the commands to the end of the
   children of the worker, then the connection goes *)
Definition cleanup (k : nat) (l : list kid) : list kid :=
  filter (fun x => negb (is_conn k x)) l ++ map Alone (entries (filter (is_conn k) l)).
(* sid_res_create of a command with _init_command, src/resource/ubr.c:6113-6133 and 6231-6342, which succeeds *)
Definition new_entry (num : nat) (r : bytes * reg) (flags : byte * byte) (client : bool) : outcome entry :=
  let! c := init_cmd (snd r) in Ok (Entry num (fst r) (snd r) flags client c).
(* The answers of the surroundings as far as the tree decides them: without a connection nothing can be sent to a client
   (src/resource/ubr.c:5829-5832, 5869-5872); the response to a command of the worker itself is dropped (5883-5885) *)
Definition settle (e : entry) (conn : bool) (a : answers) : answers :=
  if negb (e_client e) then Answers (an_exec a) (an_build a) (an_count a) (an_timer a) (an_exp a) 0
  else if conn then a
  else Answers (an_exec a) (an_build a) (an_count a) (an_timer a) (if to_main (e_reg e) then an_exp a else (-1)%Z) (-1).

Inductive waction :=
| R_accept                    (* a client connects: the main process sends the connection *)
| R_dbdump (path : bytes)     (* sid_ubr_cmd_dbdump in the main process *)
| R_udev                      (* the main process sees a uevent of the device *)
| R_main (ok : bool)          (* the main process takes a message *)
| R_message (ok : bool)       (* the worker takes a message; ok: a connection can be made *)
| R_request (k : nat) (cmd : nat) (flags : byte * byte) (* a complete request comes on connection k *)
| R_close (k : nat) (err : bool) (* connection k ends, with EPOLLERR *)
| R_handler (n : nat) (a : answers) | R_timer (n : nat) (* handler and timer of command n *)
| R_exit.                     (* the worker is told to exit, src/resource/wrk-ctl.c:351-360 *)
Definition push_down (s : wsys) (n : option nat) (m : message) : wsys :=
  Wsys (w_kids s) (w_next s) (w_ended s) (w_up s) (w_down s ++ [(n, m)]) (w_lost s).
Definition with_kids (s : wsys) (l : list kid) : wsys := Wsys l (w_next s) (w_ended s) (w_up s) (w_down s) (w_lost s).
Definition find_num (n : nat) (l : list kid) : option entry := find (fun e => e_num e =? n) (entries l).
Definition find_name (id : bytes) (l : list kid) : option entry := find (fun e => name_eqb (e_name e) id) (entries l).
Definition lose (b : bool) (s : wsys) : wsys :=
  Wsys (w_kids s) (w_next s) (w_ended s) (w_up s) (w_down s) (if b then S (w_lost s) else w_lost s).
(* The main process takes a message: 6800-6830 *)
Definition step_main (s : wsys) (ok : bool) : wsys :=
  match w_up s with
  | [] => s
  | (n, m) :: up =>
    let r := proxy_recv m ok in
    let kids := match find_num n (w_kids s) with
                | Some e => if ra_merge r then set_entry (with_cmd e (emit (e_cmd e) (Merged ok))) (w_kids s) else w_kids s
                | None => w_kids s
                end in
    let down := match ra_reply r with Some a => w_down s ++ [(Some n, a)] | None => w_down s end in
    lose (m_ext m && negb (ra_closed r)) (Wsys kids (w_next s) (w_ended s) up down (w_lost s))
  end.
(* The worker takes a message: 6936-7011 *)
Definition step_message (s : wsys) (ok : bool) : outcome wsys :=
  match w_down s with
  | [] => Ok s
  | (_, m) :: down =>
    let! (j, closed) := worker_recv m in
    let s := Wsys (w_kids s) (w_next s) (w_ended s) (w_up s) down (w_lost s) in
    match j with
    | J_none => Ok (lose (m_ext m && negb closed) s)
    | J_sched id mem =>
      let s := lose (m_ext m && negb closed) s in
      match find_name id (w_kids s) with
      | None => Ok s
      | Some e =>
        let c := if mem then with_mem (e_cmd e) else e_cmd e in
        let! (c, _) := change_state (e_reg e) c C_EXE_SCHED 0 in
        Ok (with_kids s (set_entry (with_cmd e c) (w_kids s)))
      end
    | J_conn =>
      (* _init_connection, 6180-6215, closes the descriptor when it fails *)
      if ok then Ok (Wsys (w_kids s ++ [Conn (w_next s) []]) (S (w_next s)) (w_ended s) (w_up s) (w_down s) (w_lost s)) else Ok s
    | J_self cmd =>
      let s := lose (m_ext m) s in
      if (cmd =? SELF_DBDUMP)%N then
        let! e := new_entry (w_next s) self_reg (NUL, NUL) false in
        Ok (Wsys (w_kids s ++ [Alone e]) (S (w_next s)) (w_ended s) (w_up s) (w_down s) (w_lost s))
      else Ok s
    end
  end.
(* _on_connection_event, src/resource/ubr.c:6135-6178, with a complete request that is accepted *)
Definition step_request (s : wsys) (k : nat) (cmd : nat) (flags : byte * byte) : outcome wsys :=
  if existsb (is_conn k) (w_kids s) then
    match nth_error client_regs cmd with
    | None => Ok s
    | Some r =>
      let! e := new_entry (w_next s) r flags true in
      let f x := match x with Conn n l => if n =? k then Conn n (l ++ [e]) else x | Alone _ => x end in
      Ok (Wsys (map f (w_kids s)) (S (w_next s)) (w_ended s) (w_up s) (w_down s) (w_lost s))
    end
  else Ok s.
(* _cmd_handler of command n; when sending the response failed, its connection is cleaned up (5876-5880); when it failed, the loop
   of the worker ends (6335) *)
Definition step_handler (s : wsys) (n : nat) (a : answers) : outcome wsys :=
  match find_num n (w_kids s) with
  | None => Ok s
  | Some e =>
    if c_armed (e_cmd e) then
      let conn := conn_of n (w_kids s) in
      let a := settle e (match conn with Some _ => true | None => false end) a in
      let! c := handler (e_reg e) (e_cmd e) a in
      let kids := set_entry (with_cmd e (with_sent c [])) (w_kids s) in
      let failed := c_resbuf (e_cmd e) && negb (c_resbuf c) && (an_res a <? 0)%Z in
      let kids := match conn with Some k => if failed then cleanup k kids else kids | None => kids end in
      Ok (Wsys kids (w_next s) (c_ended c) (w_up s ++ map (fun m => (n, ask m (e_flags e) (e_name e))) (c_sent c)) (w_down s) (w_lost s))
    else Ok s
  end.
Definition step_timer (s : wsys) (n : nat) : outcome wsys :=
  match find_num n (w_kids s) with
  | None => Ok s
  | Some e =>
    if c_timer (e_cmd e) then
      let! (c, _) := change_state (e_reg e) (e_cmd e) C_TIM_OUT 0 in Ok (with_kids s (set_entry (with_cmd e c) (w_kids s)))
    else Ok s
  end.
(* An action that cannot happen changes nothing *)
Definition wstep (s : wsys) (x : waction) : outcome wsys :=
  match x with
  | R_accept => Ok (push_down s None msg_client)
  | R_dbdump path => Ok (push_down s None (msg_dbdump path))
  | R_udev => Ok (push_down s None msg_umonitor)
  | R_main ok => Ok (step_main s ok)
  | R_exit => Ok (Wsys (w_kids s) (w_next s) true (w_up s) (w_down s) (w_lost s))
  | _ =>
    if w_ended s then Ok s
    else
      match x with
      | R_message ok => step_message s ok
      | R_request k cmd flags => step_request s k cmd flags
      | R_close k err => if negb (existsb (is_conn k) (w_kids s)) then Ok s else Ok (Wsys (cleanup k (w_kids s)) (w_next s) err (w_up s) (w_down s) (w_lost s))
      | R_handler n a => step_handler s n a
      | R_timer n => step_timer s n
      | _ => Ok s
      end
  end.
Fixpoint wsteps (s : wsys) (l : list waction) : outcome wsys :=
  match l with [] => Ok s | x :: l => let! s := wstep s x in wsteps s l end.
Definition fresh : wsys := Wsys [] 0 false [] [] 0.
Definition wrun (l : list waction) : outcome wsys := wsteps fresh l.
