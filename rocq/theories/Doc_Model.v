(* The documents commands reply with: the database dump, the list of devices, the resource tree, version and statistics.  Each is the
   list of calls of src/internal/fmt.c made (Fmt_Model), in order. *)
From Verif Require Import Base Tok_Model UtilStr_Model UbrKey_Model UbrDb_Model UbrRec_Model UbrStack_Model Fmt_Model.
Local Open Scope nat_scope.

(* isprint, in the C locale *)
Definition isprint (c : byte) : bool := (32 <=? byteN c)%N && (byteN c <=? 126)%N.
(* _is_string_data, src/resource/ubr.c:1191-1201, of data that is not empty; the data is shorter than 2 GiB (the index is an int) *)
Definition is_string_data (d : bytes) : bool := Ascii.eqb (last d NUL) NUL && forallb isprint (removelast d).
(* The loop of _print_vvalue, src/resource/ubr.c:1216-1229: first is i == start_idx.  l. 1226 passes i + start_idx, which is never 0,
   as the flag for the comma.  A string is printed up to its NUL, which is_string_data has made sure is its last byte. *)
Fixpoint print_items (level : nat) (first : bool) (ds : list bytes) : list op :=
  match ds with
  | [] => []
  | d :: ds =>
    match d with
    | [] => AStr (level + 1) [] false
    | _ => if is_string_data d then AStr (level + 1) (removelast d) (negb first) else ABin (level + 1) d true
    end :: print_items level false ds
  end.
(* _print_vvalue, src/resource/ubr.c:1203-1238 *)
Definition print_vvalue (v : list bytes) (vector : bool) (name : bytes) (level : nat) : outcome (list op) :=
  let! ds := vvalue_data v in
  if vector then Ok (ArrStart level name true :: print_items level true ds ++ [ArrEnd level])
  else
    match ds with
    | [] => UB
    | [] :: _ => Ok [FldStr level name [] true]
    | d :: _ => Ok [if is_string_data d then FldStr level name (removelast d) true else FldBin level name d true]
    end.
(* fl_tab, src/resource/ubr.c:1245-1255 *)
Definition fl_tab : list (N * bytes) :=
  [(FL_ALIGN, B "AL"); (FL_SYNC, B "SC"); (FL_PERSIST, B "PS"); (FL_AR, B "AR"); (FL_RS, B "RS"); (FL_FRG_RD, B "FR_RD"); (FL_SUB_RD, B "SB_RD");
   (FL_SUP_RD, B "SP_RD"); (FL_FRG_WR, B "FR_WR"); (FL_SUB_WR, B "SB_WR"); (FL_SUP_WR, B "SP_WR")].
(* the loop of _print_flags, src/resource/ubr.c:1264-1275 *)
Fixpoint print_flag_items (flags : N) (level : nat) (comma : bool) (tab : list (N * bytes)) : list op :=
  match tab with
  | [] => []
  | (v, n) :: tab => if has flags v then AStr level n comma :: print_flag_items flags level true tab else print_flag_items flags level comma tab
  end.
(* _print_flags, src/resource/ubr.c:1240-1279 *)
Definition print_flags (flags : N) (level : nat) : list op := ArrStart level (B "flags") true :: print_flag_items flags (level + 1) false fl_tab ++ [ArrEnd level].

Definition is_vector (s : stored) : bool := match s with Vector _ => true | Scalar _ => false end.
(* One record of the dump, src/resource/ubr.c:1514-1526; the record counter is an unsigned int and taken not to wrap *)
Definition dump_record (records : N) (comma : bool) (key : bytes) (s : stored) : outcome (list op) :=
  let! v := vvalue_of s in
  let! gen := vvalue_gennum v in
  let! seq := vvalue_seqnum v in
  let! flags := vvalue_flags v in
  let! owner := vvalue_owner v in
  let! val := print_vvalue v (is_vector s) (if is_vector s then B "values" else B "value") 3 in
  Ok ([ElmStart 2 comma; FldUint 3 (B "RECORD") records false; FldStr 3 (B "key") key true; FldUint 3 (B "gennum") gen true; FldUint64 3 (B "seqnum") seq true]
      ++ print_flags flags 3 ++ [FldStr 3 (B "owner") owner true] ++ val ++ [ElmEnd 2]).
(* The key without the prefix of the sync index, src/resource/ubr.c:1399-1405 *)
Definition without_sync (key : bytes) : bytes := match key with c :: k => if Ascii.eqb c C_SYNC then k else key | [] => [] end.
(* The loop of _build_cmd_kv_buffers (src/resource/ubr.c:1368-1549) for the dump command (l. 5721-5725: neither sync nor persistent
   records only, all to the export buffer), on the records in the order of the iterator.  None: failure, for a vector in the udev
   namespace (l. 1416-1422).  The buffer of keys to unset is in UbrSync_Model and left out here. *)
Fixpoint dump_records (records : N) (rs : list (bytes * stored)) : outcome (option (list op)) :=
  match rs with
  | [] => Ok (Some [])
  | (key, s) :: rs =>
    let key := without_sync key in
    if ns_eqb (get_ns_from_key key) NS_UDEV && is_vector s then Ok None
    else
      let! os := dump_record records (negb (records =? 0)%N) key s in
      let! r := dump_records (records + 1) rs in
      Ok (match r with Some r => Some (os ++ r) | None => None end)
  end.
(* src/resource/ubr.c:1363-1366 and 1551-1555 *)
Definition dump (rs : list (bytes * stored)) : outcome (option (list op)) :=
  let! r := dump_records 0 rs in
  Ok (match r with Some os => Some (DocStart 0 :: ArrStart 1 (B "siddb") false :: os ++ [ArrEnd 1; DocEnd 0; NullByte]) | None => None end).

(* dev_ready_str and dev_reserved_str, src/resource/ubr.c:236-254, by the numbers of src/include/resource/ucmd-mod.h:221-246 *)
Definition dev_ready_str : list bytes :=
  [B "RDY_UNDEFINED"; B "RDY_REMOVED"; B "RDY_UNPROCESSED"; B "RDY_UNCONFIGURED"; B "RDY_UNINITIALIZED"; B "RDY_PRIVATE"; B "RDY_FLAT"; B "RDY_UNAVAILABLE"; B "RDY_PUBLIC"].
Definition dev_reserved_str : list bytes := [B "RES_UNDEFINED"; B "RES_UNPROCESSED"; B "RES_RESERVED"; B "RES_USED"; B "RES_FREE"].
(* _sval_to_dev_ready_str and _sval_to_dev_reserved_str, src/resource/ubr.c:4646-4660: a scalar, read from its data; a number outside
   the table reads past it *)
Definition sval_to_str (tab : list bytes) (s : stored) : outcome bytes :=
  match s with
  | Vector _ => UB
  | Scalar b =>
    let! off := svalue_ext_data_offset b in
    let! n := number_at 4 (skipn (18 + N.to_nat off) b) in
    match nth_error tab (N.to_nat n) with Some t => Ok t | None => UB end
  end.
(* _copy_ns_part_from_key (src/resource/ubr.c:789-802) into a buffer of UTIL_UUID_STR_SIZE, the string it then holds *)
Definition devid_of (key : bytes) : option bytes := match get_key_part key KEY_PART_NS_PART with Some d => if length d <? UUID_STR_SIZE then Some d else None | None => None end.
(* What a record adds to the entry of its device, src/resource/ubr.c:4702-4713; _get_vvalue with the short vector (l. 4669) for a scalar
   with the alignment flag writes past it *)
Definition dev_field (comma : bool) (core : bytes) (s : stored) : outcome (list op) :=
  if key_eqb core K_IN || key_eqb core K_MEMBERS then
    let! v := vvalue_of s in
    let! flags := vvalue_flags v in
    if negb (is_vector s) && has flags FL_ALIGN then UB else print_vvalue v (is_vector s) core 3
  else if key_eqb core K_READY then let! t := sval_to_str dev_ready_str s in Ok [FldStr 3 K_READY t comma]
  else if key_eqb core K_RESERVED then let! t := sval_to_str dev_reserved_str s in Ok [FldStr 3 K_RESERVED t comma]
  else Ok [].
(* The loop of _cmd_exec_devices, src/resource/ubr.c:4686-4717, and the end of the last element (l. 4719-4720) *)
Fixpoint devices_loop (prev : bytes) (comma : bool) (rs : list (bytes * stored)) : outcome (list op) :=
  match rs with
  | [] => Ok (match prev with [] => [] | _ => [ElmEnd 2] end)
  | (key, s) :: rs =>
    match devid_of key, get_key_part_rest key KEY_PART_CORE with
    | Some devid, Some core =>
      let start := if key_eqb prev devid then [] else (match prev with [] => [] | _ => [ElmEnd 2] end) ++ [ElmStart 2 comma; FldStr 3 (B "DEVID") devid false] in
      let! fld := dev_field comma core s in
      let! os := devices_loop devid true rs in
      Ok (start ++ fld ++ os)
    | _, _ => devices_loop prev comma rs
    end
  end.
(* _cmd_exec_devices, src/resource/ubr.c:4662-4732, on the records whose keys begin with "::D:" in the order of the iterator *)
Definition devices (rs : list (bytes * stored)) : outcome (list op) :=
  let! os := devices_loop [] false rs in
  Ok (DocStart 0 :: ArrStart 1 (B "siddevices") false :: os ++ [ArrEnd 1; DocEnd 0; NullByte]).

(* What sid_res_tree_write prints of a resource: id, type name, event sources (name, events_max, events_fired) in the order of the
   list, process, flags, priority, reference count, children *)
Inductive rtree := RTree (id : bytes) (type : option bytes) (es : list (bytes * N * N)) (pid flags : N) (prio : Z) (refs : N) (children : list rtree).
(* _write_event_source_elem_fields and the loop around it, src/resource/res.c:1419-1424 and 1437-1442: from the end of the list *)
Fixpoint write_es (level : nat) (first : bool) (es : list (bytes * N * N)) : list op :=
  match es with
  | [] => []
  | (n, mx, fired) :: es =>
    [ElmStart (level + 1) (negb first); FldStr (level + 2) (B "name") n false; FldUint64 (level + 2) (B "events_max") mx true; FldUint64 (level + 2) (B "events_fired") fired true; ElmEnd (level + 1)]
    ++ write_es level false es
  end.
(* _write_res_eleme_fields, src/resource/res.c:1426-1449 *)
Definition write_fields (level : nat) (id : bytes) (type : option bytes) (es : list (bytes * N * N)) (pid flags : N) (prio : Z) (refs : N) : list op :=
  [FldStr level (B "ID") id false] ++ match type with Some t => [FldStr level (B "type") t true] | None => [] end
  ++ match es with [] => [] | _ => ArrStart level (B "event-sources") true :: write_es level true (rev es) ++ [ArrEnd level] end
  ++ [FldUint level (B "pid-created") pid true; FldUint level (B "flags") flags true; FldInt64 level (B "prio") prio true; FldUint level (B "ref-count") refs true].
(* sid_res_tree_write, src/resource/res.c:1451-1471 *)
Fixpoint tree_write (level : nat) (comma : bool) (t : rtree) : list op :=
  let fix go (first : bool) (l : list rtree) : list op := match l with [] => [] | c :: l => tree_write (level + 2) (negb first) c ++ go false l end in
  match t with
  | RTree id type es pid flags prio refs children =>
    [ElmStart level comma] ++ write_fields (level + 1) id type es pid flags prio refs
    ++ match children with [] => [] | _ => ArrStart (level + 1) (B "children") true :: go true children ++ [ArrEnd (level + 1)] end
    ++ [ElmEnd level]
  end.
(* _cmd_exec_resources, src/resource/ubr.c:4540-4644, once the main process has sent its tree (written by
   _worker_proxy_recv_system_cmd_resources, 6779-6783), what is added to the response *)
Definition resources (main worker : rtree) : list op :=
  [ElmStart 0 false; ArrStart 1 (B "sidresources") false] ++ tree_write 2 false main ++ tree_write 2 true worker ++ [ArrEnd 1; ElmEnd 0; NullByte].
(* _cmd_exec_version, src/resource/ubr.c:4519-4537 *)
Definition version (protocol major minor release : N) : list op :=
  [DocStart 0; FldUint 1 (B "SID_IFC_PROTOCOL") protocol false; FldUint 1 (B "SID_MAJOR") major true; FldUint 1 (B "SID_MINOR") minor true; FldUint 1 (B "SID_RELEASE") release true; DocEnd 0; NullByte].
(* _cmd_exec_dbstats, src/resource/ubr.c:4734-4763 *)
Definition dbstats (keys int int_data ext ext_data meta pairs : N) : list op :=
  [DocStart 0; FldUint64 1 (B "KEYS_SIZE") keys false; FldUint64 1 (B "VALUES_INTERNAL_SIZE") int true; FldUint64 1 (B "VALUES_INTERNAL_DATA_SIZE") int_data true;
   FldUint64 1 (B "VALUES_EXTERNAL_SIZE") ext true; FldUint64 1 (B "VALUES_EXTERNAL_DATA_SIZE") ext_data true; FldUint64 1 (B "METADATA_SIZE") meta true;
   FldUint 1 (B "NR_KEY_VALUE_PAIRS") pairs true; DocEnd 0; NullByte].
