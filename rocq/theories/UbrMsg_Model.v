(* Requests of clients: the check of a message, the choice of the command, the import of the udev environment,
   src/resource/ubr.c.  A message is the list of the bytes the connection's buffer holds after its size prefix. *)
From Verif Require Import Base Kvs_Model Tok_Model UtilStr_Model BaseUtil_Model UbrKey_Model UbrDb_Model UbrRec_Model UbrDelta_Model.
Local Open Scope nat_scope.

(* sid_ifc_cmd_t, src/include/iface/ifc.h:20-34; SID_IFC_PROTOCOL, 18 *)
Definition CMD_UNDEFINED := 0. Definition CMD_UNKNOWN := 1. Definition CMD_ACTIVE := 2. Definition CMD_CHECKPOINT := 3. Definition CMD_REPLY := 4.
Definition CMD_SCAN := 5. Definition CMD_VERSION := 6. Definition CMD_DBDUMP := 7. Definition CMD_DBSTATS := 8. Definition CMD_RESOURCES := 9.
Definition CMD_DEVICES := 10. Definition CMD_END := CMD_DEVICES.
Definition PROTOCOL := 2.
(* struct sid_ifc_msg_header, src/include/iface/ifc-internal.h:18-27: 8 bytes of status, prot, cmd, 2 bytes of flags.
   memcpy of the header out of the message (src/resource/ubr.c:6076, 6119, 6241): UB when there are fewer bytes. *)
Definition HEADER_SIZE := 12.
Record header := Header { h_prot : nat; h_cmd : nat }.
Definition read_header (msg : bytes) : outcome header :=
  if length msg <? HEADER_SIZE then UB else Ok (Header (nat_of_ascii (nth 8 msg NUL)) (nat_of_ascii (nth 9 msg NUL))).

(* _cmd_root_only, src/resource/ubr.c:522-534 *)
Definition cmd_root_only : list bool := [false; false; false; true; false; true; false; true; true; true; true].
(* _socket_client_is_capable, src/resource/ubr.c:6055-6065; uid is that of the peer, None when it cannot be found out *)
Definition client_is_capable (uid : option N) (cmd : nat) : outcome bool :=
  match uid with
  | Some 0%N => Ok true
  | _ => match nth_error cmd_root_only cmd with Some b => Ok (negb b) | None => UB end
  end.
(* _check_msg, src/resource/ubr.c:6067-6110, of a message of a client on its connection; the number is corrected in a copy only *)
Definition check_msg (uid : option N) (msg : bytes) : outcome Z :=
  if length msg <? HEADER_SIZE then Ok (-1)%Z
  else
    let! h := read_header msg in
    let cmd := if CMD_END <? h_cmd h then CMD_UNKNOWN else h_cmd h in
    let! ok := client_is_capable uid cmd in
    Ok (if ok then 0%Z else (-1)%Z).

(* _client_cmd_regs, src/resource/ubr.c:5710-5731: name, CMD_KV_IMPORT_UDEV and CMD_SESSION_ID, whether there is exec.
   The first entry has no initializer. *)
Record creg := Creg { g_name : option bytes; g_import : bool; g_session : bool; g_exec : bool }.
Definition client_cmd_regs : list creg :=
  [Creg None false false false; Creg (Some (B "c-unknown")) false false false; Creg (Some (B "c-active")) false false false;
   Creg (Some (B "c-checkpoint")) true false false; Creg (Some (B "c-reply")) false false false; Creg (Some (B "c-scan")) true true true;
   Creg (Some (B "c-version")) false false true; Creg (Some (B "c-dbdump")) false false false; Creg (Some (B "c-dbstats")) false false true;
   Creg (Some (B "c-resource")) false false true; Creg (Some (B "c-devices")) false false true].
(* _get_cmd_reg, src/resource/ubr.c:5754-5766, of MSG_CATEGORY_CLIENT *)
Definition get_cmd_reg (cmd : nat) : outcome creg := match nth_error client_cmd_regs cmd with Some r => Ok r | None => UB end.

(* ucmd_ctx->req_env.dev: what the environment tells of the device.  The action and the uuid are kept as text. *)
Record udev := Udev { v_num : bytes; v_dsq : option bytes; v_action : option bytes; v_path : option bytes; v_name : option bytes;
                      v_part : bool; v_seqnum : N; v_diskseq : N; v_synth : option bytes; v_partn : N }.
Definition EQUALS : byte := "="%char.
(* SID_KV_FL_RD | SID_KV_FL_WR, src/include/resource/ucmd-mod.h:139-158 *)
Definition FL_RD_WR : N := N.lor FL_RD (N.lor FL_FRG_WR (N.lor FL_SUB_WR FL_SUP_WR)).
Definition ull_of (v : bytes) : N := fst (fst (strtoull v)).
(* _device_add_field, src/resource/ubr.c:4104-4148: one string of the environment, without its NUL.  The names are in
   src/include/internal/common.h:16-24.  A pointer past NULL (4131) is UB. *)
Definition device_add_field (d : db) (gen : N) (u : udev) (s : bytes) : outcome (db * udev * Z) :=
  match index EQUALS s with
  | None => Ok (d, u, (-1)%Z)
  | Some i =>
    let key := firstn i s in
    let value := skipn (i + 1) s in
    if length value =? 0 then Ok (d, u, (-1)%Z)
    else
      let! (d, r, _) := do_kv_set d (Ucmd (DevCtx (Some (v_num u)) None) (v_seqnum u) gen) OWNER_CORE None NS_UDEV key (Some (value ++ [NUL])) FL_RD_WR false in
      if (r <? 0)%Z then Ok (d, u, (-1)%Z)
      else
        let is k := key_eqb key (B k) in
        if is "ACTION"%string then
          Ok (d, Udev (v_num u) (v_dsq u) (Some value) (v_path u) (v_name u) (v_part u) (v_seqnum u) (v_diskseq u) (v_synth u) (v_partn u), 0%Z)
        else if is "DEVPATH"%string then
          match rstr value (B "/") with
          | None => UB
          | Some p => Ok (d, Udev (v_num u) (v_dsq u) (v_action u) (Some value) (Some (skipn (p + 1) value)) (v_part u) (v_seqnum u) (v_diskseq u) (v_synth u) (v_partn u), 0%Z)
          end
        else if is "DEVTYPE"%string then
          Ok (d, Udev (v_num u) (v_dsq u) (v_action u) (v_path u) (v_name u) (strcaseeq value (B "partition")) (v_seqnum u) (v_diskseq u) (v_synth u) (v_partn u), 0%Z)
        else if is "SEQNUM"%string then
          Ok (d, Udev (v_num u) (v_dsq u) (v_action u) (v_path u) (v_name u) (v_part u) (ull_of value) (v_diskseq u) (v_synth u) (v_partn u), 0%Z)
        else if is "DISKSEQ"%string then
          Ok (d, Udev (v_num u) (v_dsq u) (v_action u) (v_path u) (v_name u) (v_part u) (v_seqnum u) (ull_of value) (v_synth u) (v_partn u), 0%Z)
        else if is "SYNTH_UUID"%string then
          Ok (d, Udev (v_num u) (v_dsq u) (v_action u) (v_path u) (v_name u) (v_part u) (v_seqnum u) (v_diskseq u) (Some value) (v_partn u), 0%Z)
        else if is "PARTN"%string then
          Ok (d, Udev (v_num u) (v_dsq u) (v_action u) (v_path u) (v_name u) (v_part u) (v_seqnum u) (v_diskseq u) (v_synth u) (ull_of value), 0%Z)
        else Ok (d, u, 0%Z)
  end.
(* The loop of _parse_cmd_udev_env, src/resource/ubr.c:4177-4180: r is the result of the comparison.  The bytes end with the
   message: without a NUL strchr and strlen read outside (UB). *)
Fixpoint parse_fields (fuel : nat) (d : db) (gen : N) (u : udev) (env : bytes) : outcome (db * udev * Z) :=
  match fuel, env with
  | S fuel, _ :: _ =>
    match strlen env with
    | None => UB
    | Some n =>
      let! (d, u, r) := device_add_field d gen u (firstn n env) in
      if (r <? 0)%Z then Ok (d, u, 1%Z) else parse_fields fuel d gen u (skipn (n + 1) env)
    end
  | _, _ => Ok (d, u, 0%Z)
  end.
(* major and minor of a dev_t (glibc, sys/sysmacros.h); the numbers are kept in int *)
Definition to_int (n : N) : Z := let n := (n mod 2 ^ 32)%N in if (n <? 2 ^ 31)%N then Z.of_N n else (Z.of_N n - 2 ^ 32)%Z.
Definition dev_major (n : N) : Z := to_int (N.lor (N.shiftr n 8 mod 2 ^ 12) (N.shiftl (N.shiftr n 44) 12)).
Definition dev_minor (n : N) : Z := to_int (N.lor (n mod 2 ^ 8) (N.shiftl (N.shiftr n 20 mod 2 ^ 24) 8)).
(* "%" PRIu64 *)
Definition print_u (n : N) : bytes := print_d (Z.of_N n).
Definition no_udev (num : bytes) : udev := Udev num None None None None false 0 0 None 0.
(* _parse_cmd_udev_env, src/resource/ubr.c:4150-4199; dev_t has 8 bytes.  asprintf does not fail here. *)
Definition parse_udev_env (d : db) (gen : N) (env : bytes) : outcome (db * udev * Z) :=
  if length env <=? 8 then Ok (d, no_udev [], (- EINVAL)%Z)
  else
    let devno := unle (firstn 8 env) in
    let num := print_d (dev_major devno) ++ "_"%char :: print_d (dev_minor devno) in
    let! (d, u, r) := parse_fields (length env) d gen (no_udev num) (skipn 8 env) in
    if negb (r =? 0)%Z then Ok (d, u, r)
    else
      let dsq := if v_part u then print_u (v_diskseq u) ++ B "-part" ++ print_u (v_partn u) else print_u (v_diskseq u) in
      Ok (d, Udev (v_num u) (Some dsq) (v_action u) (v_path u) (v_name u) (v_part u) (v_seqnum u) (v_diskseq u) (v_synth u) (v_partn u), 0%Z).

(* What becomes of a request.  Of the command created: its number, its entry, the database and the device. *)
Inductive answer :=
| Refused                    (* no command is created; _reply_failure is called *)
| Created (cmd : nat) (r : creg) (d : db) (u : udev).
(* _create_cmd_res, src/resource/ubr.c:6112-6133, with _init_command, 6231-6342, as to the check of the protocol, the choice of
   the entry and the import; what fails for want of memory and the session id are left out.  Reading the name of the entry
   (6124) comes before the check of the protocol (6259). *)
Definition create_cmd (d : db) (gen : N) (uid : option N) (msg : bytes) : outcome answer :=
  let! c := check_msg uid msg in
  if (c <? 0)%Z then Ok Refused
  else
    let! h := read_header msg in
    let! _ := get_cmd_reg (h_cmd h) in
    if negb (h_prot h =? PROTOCOL) then Ok Refused
    else
      let! r := get_cmd_reg (h_cmd h) in
      if g_import r then
        let! (d, u, c) := parse_udev_env d gen (skipn HEADER_SIZE msg) in
        Ok (if (c <? 0)%Z then Refused else Created (h_cmd h) r d u)
      else Ok (Created (h_cmd h) r d (no_udev [])).

(* _reply_failure, src/resource/ubr.c:6031-6053: whether a failure is written to the client, and the result.  add is the
   result of sid_buf_add, write that of sid_buf_write_all. *)
Definition reply_failure (msg : bytes) (add write : Z) : outcome (bool * Z) :=
  let! h := read_header msg in
  if h_prot h <=? PROTOCOL then
    if (add <? 0)%Z then Ok (true, write) else Ok (false, add)
  else Ok (false, (-1)%Z).
