(* The import of the tagged devices of the udev database when the daemon starts, src/resource/ubr.c. *)
From Verif Require Import Base Kvs_Model UtilStr_Model UbrKey_Model UbrDb_Model UbrDelta_Model UbrRec_Model UbrStack_Model UbrScan_Model UbrMsg_Model UbrDevId_Model.
Local Open Scope nat_scope.

(* _do_kv_delta_set with DELTA_WITH_DIFF alone, src/resource/ubr.c:2386-2466, in a sync: no absolute deltas are calculated or stored, and
   _delta_update (2183-2341) returns before the relatives *)
Definition delta_set_sync (d : db) (cur : key_spec) (h : hdr) (op : kv_op) (new : list bytes) : outcome (db * Z) :=
  match delta_write d (store_key cur) h op new true with
  | DUB => UB
  | DErr => Ok (d, (-1)%Z)
  | DOk (d, code, _) => Ok (d, if (code <? 0)%Z then (-1)%Z else 0%Z)
  end.
(* The relatives in _delta_update, src/resource/ubr.c:2260-2341, in a sync *)
Fixpoint rels_sync (d : db) (cur rel : key_spec) (h : hdr) (op : kv_op) (l : list bytes) : outcome (db * Z) :=
  match l with
  | [] => Ok (d, 0%Z)
  | x :: l =>
    match relative rel x with
    | None => Ok (d, (-1)%Z)
    | Some k =>
      let! (d, _) := delta_set_sync d k (Hdr (h_seq h) FLAGS_NO_SYNC (h_gen h) (h_owner h)) op [compose_key_prefix cur] in
      rels_sync d cur rel h op l
    end
  end.
(* _kv_delta_set with DELTA_WITH_REL in a sync, src/resource/ubr.c:2386-2482 *)
Definition kv_delta_set_sync (d : db) (cur rel : key_spec) (h : hdr) (op : kv_op) (new : list bytes) : outcome (db * Z) :=
  match delta_write d (store_key cur) h op new true with
  | DUB => UB
  | DErr => Ok (d, (-1)%Z)
  | DOk (d, code, s) =>
    if (code <? 0)%Z then Ok (d, (-1)%Z)
    else
      let! (d, r) := rels_sync d cur rel h OP_PLUS (buf_items (d_plus s)) in
      if (r <? 0)%Z then Ok (d, (-1)%Z)
      else let! (d, r) := rels_sync d cur rel h OP_MINUS (buf_items (d_minus s)) in
           if (r <? 0)%Z then Ok (d, (-1)%Z) else Ok (d, 0%Z)
  end.
(* _handle_devs_for_group for the device of the command, src/resource/ubr.c:3276-3357, as _set_new_dev_kvs (4803-4846) calls it with is_sync *)
Definition add_alias_sync (d : db) (u : ucmd) (cat id : bytes) : outcome (db * Z) :=
  let rel := dev_spec (get_ns_part (u_dev u) OWNER_CORE NS_DEVICE) in
  kv_delta_set_sync d (group_spec OWNER_CORE DOM_ALIAS NS_MODULE cat id) rel (core_hdr u FLAGS_NO_SYNC) OP_PLUS [compose_key_prefix rel].
(* _set_new_dev_kvs with is_sync, src/resource/ubr.c:4787-4857 *)
Definition set_new_dev_sync (s : scan) (u : ucmd) (dsq name : bytes) : outcome (db * Z) :=
  let! (s, r) := set_ready s u OWNER_CORE RDY_UNPROCESSED true in
  if (r <? 0)%Z then Ok (sc_db s, r)
  else
    let! (s, r) := set_reserved s u OWNER_CORE RES_UNPROCESSED true in
    if (r <? 0)%Z then Ok (sc_db s, r)
    else
      let! (d, r) := add_alias_sync (sc_db s) u AL_DSEQ dsq in
      if (r <? 0)%Z then Ok (d, r)
      else
        let! (d, r) := add_alias_sync d u AL_DEVNO (Tok_Model.or_empty (num_s (u_dev u))) in
        if (r <? 0)%Z then Ok (d, r) else add_alias_sync d u AL_NAME name.

(* What libudev says of a device of the enumeration: None when it cannot be opened; SID_DEV_ID, DISKSEQ, the name in sysfs, the device
   number, PARTN *)
Record udev_dev := UdevDev { ud_id : option bytes; ud_seq : option bytes; ud_name : option bytes; ud_num : N; ud_partn : option bytes }.
(* src/resource/ubr.c:7392: snprintf to 16 bytes; major and minor are unsigned here *)
Definition num_text (n : N) : bytes :=
  firstn 15 (print_d (dev_major n mod 2 ^ 32)%Z ++ B "_" ++ print_d (dev_minor n mod 2 ^ 32)%Z).
(* src/resource/ubr.c:7398-7405; asprintf does not fail *)
Definition dsq_text (seq : bytes) (partn : option bytes) : bytes := match partn with Some p => seq ++ B "-part" ++ p | None => seq end.
(* The loop of _ulink_import, src/resource/ubr.c:7371-7428: the command is empty but for the device, so its sequence number is 0 and its
   phase the first one *)
Definition import_one (d : db) (gen : N) (x : option udev_dev) : outcome (db * Z) :=
  match x with
  | Some (UdevDev (Some id) (Some seq) (Some name) n partn) =>
    set_new_dev_sync (Scan d A_INIT RDY_UNDEFINED RES_UNDEFINED) (Ucmd (DevCtx (Some (num_text n)) (Some id)) 0 gen) (dsq_text seq partn) name
  | _ => Ok (d, 0%Z)
  end.
(* _ulink_import, src/resource/ubr.c:7347-7432, once the enumeration is there *)
Fixpoint import (d : db) (gen : N) (l : list (option udev_dev)) : outcome (db * Z) :=
  match l with
  | [] => Ok (d, 0%Z)
  | x :: l => let! (d, r) := import_one d gen x in if (r <? 0)%Z then Ok (d, r) else import d gen l
  end.
