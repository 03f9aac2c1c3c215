(* Database keys of the udev broker, src/resource/ubr.c.  A key is the C string without its final NUL; a missing
   (NULL) string argument is None. *)
From Verif Require Import Base Kvs_Model Tok_Model.
Local Open Scope nat_scope.

(* sid_kv_namespace_t, src/include/resource/ucmd-mod.h:128-137, and kv_op_t, src/resource/ubr.c:381-385 *)
Inductive kv_ns := NS_UNDEFINED | NS_UDEV | NS_DEVICE | NS_MODULE | NS_DEVMOD | NS_GLOBAL.
Inductive kv_op := OP_SET | OP_PLUS | OP_MINUS.

(* SID_KVS_KEY_JOIN, src/include/resource/kvs.h:18; KV_PREFIX_OP_*, src/resource/ubr.c:67-69;
   KV_PREFIX_KEY_SYS_C, 81 *)
Definition JOIN : byte := ":"%char.
Definition C_SYNC : byte := ">"%char.
Definition C_ARCHIVE : byte := "~"%char.
Definition C_BLANK : byte := " "%char.
Definition C_SYS : byte := "#"%char.

(* op_to_key_prefix_map and ns_to_key_prefix_map, src/resource/ubr.c:428-436 *)
Definition op_prefix (o : kv_op) : bytes := match o with OP_SET => [] | OP_PLUS => B "+" | OP_MINUS => B "-" end.
Definition ns_prefix (n : kv_ns) : bytes :=
  match n with NS_UNDEFINED => [] | NS_UDEV => B "U" | NS_DEVICE => B "D" | NS_MODULE => B "M" | NS_DEVMOD => B "X" | NS_GLOBAL => B "G" end.

(* struct kv_key_spec, src/resource/ubr.c:415-424 *)
Record key_spec := KeySpec { ks_extra : option bytes; ks_op : kv_op; ks_dom : option bytes; ks_ns : kv_ns;
                             ks_ns_part : option bytes; ks_id_cat : option bytes; ks_id : option bytes; ks_core : option bytes }.

(* _do_compose_key, src/resource/ubr.c:610-653; allocation never fails *)
Definition do_compose_key (k : key_spec) (prefix_only : bool) : bytes :=
  (if prefix_only then [] else match ks_extra k with Some e => e | None => [C_BLANK] end)
  ++ op_prefix (ks_op k) ++ [JOIN]
  ++ or_empty (ks_dom k) ++ [JOIN]
  ++ ns_prefix (ks_ns k) ++ [JOIN]
  ++ or_empty (ks_ns_part k) ++ [JOIN]
  ++ or_empty (ks_id_cat k) ++ [JOIN]
  ++ or_empty (ks_id k) ++ [JOIN]
  ++ (if prefix_only then [] else or_empty (ks_core k)).
(* _compose_key and _compose_key_prefix, src/resource/ubr.c:655-665 *)
Definition compose_key (k : key_spec) : bytes := do_compose_key k false.
Definition compose_key_prefix (k : key_spec) : bytes := do_compose_key k true.
(* _cat_prefix_and_key, src/resource/ubr.c:594-608 *)
Definition cat_prefix_and_key (p k : bytes) : bytes := p ++ k.

(* key_part_t, src/resource/ubr.c:401-411 *)
Definition KEY_PART_OP := 0. Definition KEY_PART_DOM := 1. Definition KEY_PART_NS := 2. Definition KEY_PART_NS_PART := 3.
Definition KEY_PART_ID_CAT := 4. Definition KEY_PART_ID := 5. Definition KEY_PART_CORE := 6. Definition KEY_PART_COUNT := 7.

(* The loop of _decompose_key, src/resource/ubr.c:673-687, with n parts still to find: the parts found, as strings *)
Fixpoint decompose_from (n : nat) (s : bytes) : list bytes :=
  match n with
  | 0 => []
  | 1 => [s]
  | S n => match index JOIN s with None => [s] | Some i => firstn i s :: decompose_from n (skipn (i + 1) s) end
  end.
(* _decompose_key, src/resource/ubr.c:667-690: the parts that are filled in, and the number of the last one *)
Definition decompose_key (key : bytes) : list bytes * nat :=
  let p := decompose_from KEY_PART_COUNT key in (p, length p - 1).

(* _key_spec_to_parts, src/resource/ubr.c:694-703 *)
Definition key_spec_to_parts (k : key_spec) : list (option bytes) :=
  [Some (op_prefix (ks_op k)); ks_dom k; Some (ns_prefix (ks_ns k)); ks_ns_part k; ks_id_cat k; ks_id k; ks_core k].

(* The loop of _get_key_part, src/resource/ubr.c:721-725 *)
Fixpoint skip_parts (n : nat) (s : bytes) : option bytes :=
  match n with
  | 0 => Some s
  | S n => match index JOIN s with None => None | Some i => skip_parts n (skipn (i + 1) s) end
  end.
(* _get_key_part, src/resource/ubr.c:716-738: without length, the rest of the string from the part on; with length,
   the part itself *)
Definition get_key_part_rest (key : bytes) (req : nat) : option bytes := skip_parts req key.
Definition get_key_part (key : bytes) (req : nat) : option bytes :=
  match skip_parts req key with
  | None => None
  | Some s => if req =? KEY_PART_COUNT - 1 then Some s
              else match index JOIN s with None => None | Some i => Some (firstn i s) end
  end.

(* _get_op_from_key, src/resource/ubr.c:740-761 *)
Definition get_op_from_key (key : bytes) : kv_op :=
  match get_key_part key KEY_PART_OP with
  | Some [c] => if Ascii.eqb c "+"%char then OP_PLUS else if Ascii.eqb c "-"%char then OP_MINUS else OP_SET
  | _ => OP_SET
  end.
(* _get_ns_from_key, src/resource/ubr.c:763-787; for an empty part str[0] is the separator that follows *)
Definition get_ns_from_key (key : bytes) : kv_ns :=
  match get_key_part key KEY_PART_NS with
  | Some [c] => if Ascii.eqb c "U"%char then NS_UDEV else if Ascii.eqb c "D"%char then NS_DEVICE
                else if Ascii.eqb c "M"%char then NS_MODULE else if Ascii.eqb c "X"%char then NS_DEVMOD
                else if Ascii.eqb c "G"%char then NS_GLOBAL else NS_UNDEFINED
  | _ => NS_UNDEFINED
  end.

(* _key_parts_match, src/resource/ubr.c:2691-2707: reading a part of parts1 that was not filled in is UB *)
Fixpoint key_parts_match (parts1 : list bytes) (parts2 : list (option bytes)) (last : nat) {struct last} : outcome bool :=
  match last with
  | 0 => Ok true
  | S last =>
    match parts1, parts2 with
    | p1 :: parts1, None :: parts2 => key_parts_match parts1 parts2 last
    | p1 :: parts1, Some p2 :: parts2 =>
      if list_eq_dec ascii_dec p1 p2 then key_parts_match parts1 parts2 last else Ok false
    | _, _ => UB
    end
  end.
(* _get_key_strv_from_vvalue, src/resource/ubr.c:2709-2765: the list of the values (each a key with its NUL) whose
   parts match the filter; the bitmap and the layout of the returned block are not modelled *)
Fixpoint get_key_strv (values : list bytes) (filter : key_spec) : outcome (list bytes) :=
  match values with
  | [] => Ok []
  | v :: values =>
    let! rest := get_key_strv values filter in
    let (p, last) := decompose_key v in
    let! m := key_parts_match p (key_spec_to_parts filter) last in
    Ok (if m then v :: rest else rest)
  end.

(* Domains and names of system records, src/resource/ubr.c:83-94 *)
Definition DOM_ALIAS := B "ALS". Definition DOM_GROUP := B "GRP". Definition DOM_USER := B "USR".
Definition K_DBGEN := B "#DBGEN". Definition K_BOOTID := B "#BOOTID". Definition K_READY := B "#RDY".
Definition K_RESERVED := B "#RES". Definition K_MOD := B "#MOD". Definition K_MEMBERS := B "#GMB". Definition K_IN := B "#GIN".

(* The device of the command being processed: ucmd_ctx->req_env.dev.num_s and uid_s, set in _init_command
   (src/resource/ubr.c:6231-6330) *)
Record devctx := DevCtx { num_s : option bytes; uid_s : option bytes }.

(* _get_ns_part, src/resource/ubr.c:1664-1681 *)
Definition get_ns_part (d : devctx) (owner : bytes) (n : kv_ns) : bytes :=
  match n with
  | NS_UDEV => or_empty (num_s d)
  | NS_DEVICE | NS_DEVMOD => or_empty (uid_s d)
  | NS_MODULE => owner
  | NS_GLOBAL | NS_UNDEFINED => []
  end.
(* _get_foreign_ns_part, src/resource/ubr.c:1682-1702 *)
Definition get_foreign_ns_part (d : devctx) (owner : bytes) (foreign_mod foreign_dev : option bytes) (n : kv_ns) : bytes :=
  match n with
  | NS_UDEV => or_empty (num_s d)
  | NS_DEVICE | NS_DEVMOD => match foreign_dev with Some i => i | None => or_empty (uid_s d) end
  | NS_MODULE => match foreign_mod with Some m => m | None => owner end
  | NS_GLOBAL | NS_UNDEFINED => []
  end.

Definition ns_eqb (a b : kv_ns) : bool :=
  match a, b with
  | NS_UNDEFINED, NS_UNDEFINED | NS_UDEV, NS_UDEV | NS_DEVICE, NS_DEVICE | NS_MODULE, NS_MODULE
  | NS_DEVMOD, NS_DEVMOD | NS_GLOBAL, NS_GLOBAL => true
  | _, _ => false
  end.

(* The key specification of _do_sid_ucmd_kv_set, src/resource/ubr.c:2524-2531 *)
Definition set_spec (d : devctx) (owner : bytes) (dom : option bytes) (n : kv_ns) (core : bytes) : key_spec :=
  KeySpec None OP_SET dom n (Some (get_ns_part d owner n))
    (Some (if ns_eqb n NS_DEVMOD then B "M" else [])) (Some (if ns_eqb n NS_DEVMOD then get_ns_part d owner NS_MODULE else []))
    (Some core).
(* of _do_sid_ucmd_get_kv, src/resource/ubr.c:2841-2855 *)
Definition get_spec (d : devctx) (owner : bytes) (dom : option bytes) (n : kv_ns) (core : bytes) (archive : nat)
    (foreign_mod foreign_dev : option bytes) : key_spec :=
  let foreign := match foreign_mod, foreign_dev with None, None => false | _, _ => true end in
  KeySpec (Some [if archive =? 1 then C_ARCHIVE else C_BLANK]) OP_SET dom n
    (Some (if foreign then get_foreign_ns_part d owner foreign_mod foreign_dev n else get_ns_part d owner n))
    (Some (if ns_eqb n NS_DEVMOD then B "M" else []))
    (if ns_eqb n NS_DEVMOD then if foreign then foreign_mod else Some (get_ns_part d owner NS_MODULE) else Some [])
    (Some core).
(* of _check_global_kv_rs_for_wr and _do_sid_ucmd_mod_reserve_kv, src/resource/ubr.c:1618 and 2906 *)
Definition reserve_spec (dom : option bytes) (n : kv_ns) (core : bytes) : key_spec :=
  KeySpec None OP_SET dom n None None None (Some core).
(* of sid_ucmd_part_get_disk_kv, src/resource/ubr.c:4764-4785: the disk is named by its device number *)
Definition disk_spec (devno core : bytes) : key_spec :=
  KeySpec None OP_SET (Some DOM_USER) NS_DEVICE (Some devno) None None (Some core).

(* The test of the key name in the module API: sid_ucmd_kv_set (src/resource/ubr.c:2580), sid_ucmd_kv_get (2868),
   sid_ucmd_kv_reserve and _unreserve (2965, 2980), sid_ucmd_part_get_disk_kv (4776).  The tests of the other
   arguments and of the module being loaded are not modelled. *)
Definition bad_name (core : bytes) : bool := match core with [] => true | c :: _ => Ascii.eqb c C_SYS end.
Definition api_dom (n : kv_ns) : option bytes := match n with NS_UDEV => None | _ => Some DOM_USER end.

(* The keys under which an accepted call reads or writes the store.
   sid_ucmd_kv_set, src/resource/ubr.c:2485-2591: the record, its archive (key[0] = '~', 2548) and its sync index
   (_manage_kv_index, 969-989: key[0] = '>') *)
Definition with_prefix (p : byte) (key : bytes) : bytes := match key with _ :: t => p :: t | [] => [] end.
Definition kv_set_keys (d : devctx) (owner : bytes) (n : kv_ns) (core : bytes) : option (list bytes) :=
  if ns_eqb n NS_UNDEFINED || bad_name core then None
  else let key := compose_key (set_spec d owner (api_dom n) n core) in
       Some [skipn 1 key; with_prefix C_ARCHIVE key; with_prefix C_SYNC key;
             compose_key (reserve_spec (api_dom n) n core)].
(* sid_ucmd_kv_get, src/resource/ubr.c:2860-2890 *)
Definition kv_get_keys (d : devctx) (owner : bytes) (n : kv_ns) (core : bytes) (archive : nat)
    (foreign_mod foreign_dev : option bytes) : option (list bytes) :=
  if ns_eqb n NS_UNDEFINED || bad_name core then None
  else Some [compose_key (get_spec d owner (api_dom n) n core archive foreign_mod foreign_dev)].
(* sid_ucmd_kv_reserve and sid_ucmd_kv_unreserve, src/resource/ubr.c:2892-2989; the namespace is not checked *)
Definition kv_reserve_keys (n : kv_ns) (core : bytes) : option (list bytes) :=
  if bad_name core then None
  else let key := compose_key (reserve_spec (api_dom n) n core) in Some [key; with_prefix C_SYNC key].
(* sid_ucmd_part_get_disk_kv, src/resource/ubr.c:4764-4785 *)
Definition part_disk_keys (devno core : bytes) : option (list bytes) :=
  if bad_name core then None else Some [compose_key (disk_spec devno core)].

(* Key specifications of the records the broker keeps for itself, all arguments free:
   src/resource/ubr.c:7281 and 7316 (generation, boot id); 3058-3064, 3187-3193, 5338-5353 (ready, reserved, module);
   3303-3311, 3378-3384, 3455-3460, 3575-3580, 3767-3772 (groups and aliases); 4945-4953, 5093-5101 (device stack).
   The operation is + or - for the delta records (2025-2033, 2230). *)
Inductive system_spec : key_spec -> Prop :=
| Sys_gen : system_spec (KeySpec None OP_SET None NS_GLOBAL None None None (Some K_DBGEN))
| Sys_boot : system_spec (KeySpec None OP_SET None NS_GLOBAL None None None (Some K_BOOTID))
| Sys_dev : forall d owner core, In core [K_READY; K_RESERVED; K_MOD] -> system_spec (set_spec d owner None NS_DEVICE core)
| Sys_group : forall op dom n part cat id core, In dom [DOM_ALIAS; DOM_GROUP] -> In core [K_MEMBERS; K_IN] ->
    system_spec (KeySpec None op (Some dom) n part cat id (Some core))
| Sys_rel : forall op part core, In core [K_MEMBERS; K_IN] ->
    system_spec (KeySpec None op None NS_DEVICE part None None (Some core)).

(* sid_ucmd_dev_alias_add, src/resource/ubr.c:3419-3440: the record of the devices known under an alias *)
Definition alias_key_of (owner alias_key alias : bytes) : option bytes :=
  match alias_key, alias with
  | [], _ | _, [] => None
  | _, _ => Some (compose_key (KeySpec None OP_SET (Some DOM_ALIAS) NS_MODULE (Some owner) (Some alias_key) (Some alias) (Some K_MEMBERS)))
  end.
