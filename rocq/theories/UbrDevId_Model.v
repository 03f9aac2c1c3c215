(* The id of a device and the records of a new device; the name of the module of a device, src/resource/ubr.c. *)
From Verif Require Import Base Kvs_Model Tok_Model UbrKey_Model UbrDb_Model UbrDelta_Model UbrRec_Model UbrStack_Model UbrScan_Model.
Local Open Scope nat_scope.

(* DEV_ALIAS_DEVNO, DEV_ALIAS_DSEQ and DEV_ALIAS_NAME, src/resource/ubr.c:102-104; UDEV_TAG_SID, KV_KEY_UDEV_SID_TAGS and
   KV_KEY_UDEV_SID_DEV_ID, 46-49 *)
Definition AL_DEVNO : bytes := B "devno". Definition AL_DSEQ : bytes := B "dseq". Definition AL_NAME : bytes := B "name".
Definition TAG_SID : bytes := B "sid". Definition K_SID_TAGS : bytes := B ".SID_TAGS". Definition K_SID_DEV_ID : bytes := B "SID_DEV_ID".

(* ucmd_ctx->req_env.dev.uid_s = uid, src/resource/ubr.c:5282 *)
Definition with_uid (u : ucmd) (uid : bytes) : ucmd := Ucmd (DevCtx (num_s (u_dev u)) (Some uid)) (u_seq u) (u_gen u).

(* The three calls of _handle_devs_for_group in _set_new_dev_kvs, src/resource/ubr.c:4803-4846 *)
Definition add_alias (s : scan) (u : ucmd) (cat id : bytes) : outcome (scan * Z) :=
  let! (d, r) := handle_devs_for_group (sc_db s) u OWNER_CORE None DOM_ALIAS NS_MODULE cat id OP_PLUS in Ok (with_db s d, r).
(* _set_new_dev_kvs, src/resource/ubr.c:4787-4857, outside of a sync: dsq is req_env.dev.dsq_s, name is req_env.dev.udev.name *)
Definition set_new_dev_kvs (s : scan) (u : ucmd) (dsq name : bytes) : outcome (scan * Z) :=
  let! (s, r) := set_ready s u OWNER_CORE RDY_UNPROCESSED false in
  if (r <? 0)%Z then Ok (s, r)
  else
    let! (s, r) := set_reserved s u OWNER_CORE RES_UNPROCESSED false in
    if (r <? 0)%Z then Ok (s, r)
    else
      let! (s, r) := add_alias s u AL_DSEQ dsq in
      if (r <? 0)%Z then Ok (s, r)
      else
        let! (s, r) := add_alias s u AL_DEVNO (or_empty (num_s (u_dev u))) in
        if (r <? 0)%Z then Ok (s, r) else add_alias s u AL_NAME name.

(* _do_sid_ucmd_get_kv (src/resource/ubr.c:2833-2858) by the core of a value that is a string: it is read up to its NUL *)
Definition core_get (d : db) (u : ucmd) (n : kv_ns) (core : bytes) : outcome (option bytes) :=
  match fst (cmd_get_key_value d OWNER_CORE (compose_key (get_spec (u_dev u) OWNER_CORE None n core 0 None None))) with
  | None => Ok None
  | Some ([], _) => UB
  | Some (x :: _, _) => let! v := string_at x in Ok (Some v)
  end.
(* _do_sid_ucmd_kv_set by the core of a string, src/resource/ubr.c:5303-5308, 5316-5321 and 5348-5355; the NUL is stored too (2548) *)
Definition core_set (s : scan) (u : ucmd) (n : kv_ns) (core value : bytes) (flags : N) : outcome (scan * Z) :=
  let! (d, r, _) := do_kv_set (sc_db s) u OWNER_CORE None n core (Some (value ++ [NUL])) flags false in Ok (with_db s d, r).

(* _set_dev_kvs, src/resource/ubr.c:5227-5327: the scan, req_env.dev.uid_s (None: not set) and the return value.  junk is what the
   buffer on the stack holds, gen what util_uuid_gen_str (src/internal/util.c:543-555) gives, None when it fails.  _dev_matches_udev
   (5221-5225) accepts any id.  Simplification: strdup does not fail. *)
Definition set_dev_kvs (s : scan) (u : ucmd) (dsq name junk : bytes) (gen : option bytes) : outcome (scan * option bytes * Z) :=
  let! udev := core_get (sc_db s) u NS_UDEV K_SID_DEV_ID in
  let! (r, buf) := alias_to_devid (sc_db s) u OWNER_CORE AL_DEVNO (or_empty (num_s (u_dev u))) junk in
  if negb (r =? 0)%Z && negb (r =? - ENODATA)%Z then Ok (s, None, (-1)%Z)
  else
    let! known := if (r =? 0)%Z then let! v := string_at buf in Ok (Some v) else Ok None in
    match match known, udev with Some v, _ => Some v | None, Some v => Some v | None, None => gen end with
    | None => Ok (s, None, (-1)%Z)
    | Some uid =>
      let u := with_uid u uid in
      let! (s, r) := match known with None => set_new_dev_kvs s u dsq name | Some _ => Ok (s, 0%Z) end in
      if (r <? 0)%Z then Ok (s, Some uid, (-1)%Z)
      else
        let! (s, r) := match udev with None => core_set s u NS_UDEV K_SID_DEV_ID uid FL_SYNC | Some _ => Ok (s, 0%Z) end in
        if (r <? 0)%Z then Ok (s, Some uid, (-1)%Z)
        else
          let! (s, r) := core_set s u NS_UDEV K_SID_TAGS TAG_SID FL_SYNC in
          Ok (s, Some uid, if (r <? 0)%Z then (-1)%Z else 0%Z)
    end.

(* _get_base_mod_name, src/resource/ubr.c:5329-5364: the scan and the name (None is NULL); lookup is what _lookup_mod_name gives
   (ModName_Model) *)
Definition get_base_mod_name (s : scan) (u : ucmd) (lookup : outcome (option bytes)) : outcome (scan * option bytes) :=
  let! v := core_get (sc_db s) u NS_DEVICE K_MOD in
  match v with
  | Some n => Ok (s, Some n)
  | None =>
    let! l := lookup in
    match l with
    | None => Ok (s, None)
    | Some n => let! (s, r) := core_set s u NS_DEVICE K_MOD n FLAGS_CORE in Ok (s, if (r <? 0)%Z then None else Some n)
    end
  end.
