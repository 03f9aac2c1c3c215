(* Records of the udev broker's database and the rules for writing, reading and reserving them, src/resource/ubr.c.
   The key-value store is the map from keys to records proved of src/resource/kvs.c in Kvs_Properties (C24, C25); a
   record is its header and data, both stored forms (vector and merged scalar) read the same (C69). *)
From Verif Require Import Base Kvs_Model Tok_Model UbrKey_Model.
Local Open Scope nat_scope.

(* SID_KV_FL_*, src/include/resource/ucmd-mod.h:139-158 *)
Definition FL_ALIGN : N := 1. Definition FL_SYNC : N := 2. Definition FL_PERSIST : N := 4. Definition FL_SYNC_P : N := 6.
Definition FL_AR : N := 8. Definition FL_RS : N := 16.
Definition FL_FRG_RD : N := 32. Definition FL_SUB_RD : N := 64. Definition FL_SUP_RD : N := 128.
Definition FL_FRG_WR : N := 256. Definition FL_SUB_WR : N := 512. Definition FL_SUP_WR : N := 1024.
Definition has (flags bit : N) : bool := negb (N.land flags bit =? 0)%N.

(* A record: kv_scalar_t / kv_vector_t header fields, src/resource/ubr.c:320-335, and its data items *)
Record rec := Rec { r_seq : N; r_flags : N; r_gen : N; r_owner : bytes; r_data : list bytes }.
(* The store, and the set of records having a sync index alias (">" before the key) *)
Record db := Db { recs : bytes -> option rec; indexed : bytes -> bool }.
Definition key_eqb (a b : bytes) : bool := if list_eq_dec ascii_dec a b then true else false.
Definition put (m : bytes -> option rec) (k : bytes) (v : option rec) : bytes -> option rec := fun x => if key_eqb x k then v else m x.
Definition mark (m : bytes -> bool) (k : bytes) (v : bool) : bytes -> bool := fun x => if key_eqb x k then v else m x.

(* mod_match_t, src/resource/ubr.c:373-379 *)
Inductive mod_rel := MOD_NO_MATCH | MOD_MATCH | MOD_CORE_MATCH | MOD_SUB_MATCH | MOD_SUP_MATCH.
(* MOD_NAME_CORE and SID_MOD_NAME_DELIM, src/resource/ubr.c:96, src/include/resource/mod.h:24-25 *)
Definition DELIM : byte := "/"%char.
Definition OWNER_CORE : bytes := [DELIM].

(* The loop at src/resource/ubr.c:998-999: the length of the common start *)
Fixpoint common (a b : bytes) : nat :=
  match a, b with x :: a, y :: b => if Ascii.eqb x y then S (common a b) else 0 | _, _ => 0 end.
Definition ch (s : bytes) (i : nat) : byte := nth i s NUL.
(* _mod_match, src/resource/ubr.c:991-1020 *)
Definition mod_match (mod1 mod2 : bytes) : mod_rel :=
  if key_eqb mod2 OWNER_CORE then MOD_CORE_MATCH
  else
    let i := common mod1 mod2 in
    if Ascii.eqb (ch mod1 i) NUL && Ascii.eqb (ch mod2 i) NUL then MOD_MATCH
    else if negb (i =? 0) && negb (Ascii.eqb (ch mod2 i) NUL) then
      if (i =? 1) || Ascii.eqb (ch mod2 i) DELIM then MOD_SUB_MATCH else MOD_NO_MATCH
    else if negb (i =? 0) && negb (Ascii.eqb (ch mod1 i) NUL) then
      if (i =? 1) || Ascii.eqb (ch mod1 i) DELIM then MOD_SUP_MATCH else MOD_NO_MATCH
    else MOD_NO_MATCH.
(* full name of a module: src/resource/mod-reg.c:50 and 584 with the registry ids of src/resource/ubr.c:43-44 *)
Definition full_name (registry name : bytes) : bytes := DELIM :: registry ++ DELIM :: name.

(* _check_kv_wr_allowed, src/resource/ubr.c:1022-1111, on the old record and the new owner *)
Definition refuse (flags rd : N) : Z := if has flags FL_RS then (- EBUSY)%Z else if has flags rd then (- EPERM)%Z else (- EACCES)%Z.
Definition check_kv_wr_allowed (old : option rec) (new_owner : bytes) : Z :=
  match old with
  | None => 0%Z
  | Some o =>
    match mod_match (r_owner o) new_owner with
    | MOD_NO_MATCH => if has (r_flags o) FL_FRG_WR then 1%Z else refuse (r_flags o) FL_FRG_RD
    | MOD_MATCH | MOD_CORE_MATCH => 1%Z
    | MOD_SUB_MATCH => if has (r_flags o) FL_SUB_WR then 1%Z else refuse (r_flags o) FL_SUB_RD
    | MOD_SUP_MATCH => if has (r_flags o) FL_SUP_WR then 1%Z else refuse (r_flags o) FL_SUP_RD
    end
  end.

(* KV_INDEX_*, src/resource/ubr.c:63-65, and _check_kv_index_needed, 950-967 *)
Definition KV_INDEX_NOOP : Z := 0. Definition KV_INDEX_ADD : Z := 1. Definition KV_INDEX_REMOVE : Z := 2.
Definition check_kv_index_needed (is_sync : bool) (old new : option rec) : Z :=
  if is_sync then KV_INDEX_NOOP
  else
    let ix r := match r with Some r => has (r_flags r) FL_SYNC | None => false end in
    if ix old && negb (ix new) then KV_INDEX_REMOVE
    else if negb (ix old) && ix new then KV_INDEX_ADD
    else KV_INDEX_NOOP.
(* _manage_kv_index, src/resource/ubr.c:969-989; adding an alias that exists is an error that is ignored *)
Definition manage_kv_index (d : db) (code : Z) (key : bytes) : db :=
  if (code =? KV_INDEX_ADD)%Z then Db (recs d) (mark (indexed d) key true)
  else if (code =? KV_INDEX_REMOVE)%Z then Db (recs d) (mark (indexed d) key false)
  else d.

(* _kv_cb_write, src/resource/ubr.c:1113-1128, and _kv_cb_write_new_only, 3554-3560: update_arg->ret_code and whether
   the store is to be written *)
Definition cb_write (is_sync : bool) (old : option rec) (new : rec) : Z * bool :=
  let c := check_kv_wr_allowed old (r_owner new) in
  if (c <? 0)%Z then (c, false) else (check_kv_index_needed is_sync old (Some new), true).
Definition cb_write_new_only (is_sync : bool) (code : Z) (old : option rec) (new : rec) : Z * bool :=
  match old with Some _ => (code, false) | None => cb_write is_sync old new end.
(* _kv_cb_reserve, src/resource/ubr.c:1130-1175: new is None for an unset, done for the given owner *)
Definition cb_reserve (is_sync : bool) (old new : option rec) (new_owner : bytes) : Z * bool :=
  match old with
  | Some o =>
    match mod_match (r_owner o) new_owner with
    | MOD_MATCH | MOD_CORE_MATCH => (check_kv_index_needed is_sync old new, true)
    | MOD_NO_MATCH | MOD_SUB_MATCH | MOD_SUP_MATCH => ((- EPERM)%Z, false)
    end
  | None => (check_kv_index_needed is_sync old new, true)
  end.

(* sid_kvs_va_set with a callback and an archive key, as in C24 and C25: database, update_arg->ret_code and the stored record
   (None for NULL, when the callback refuses) *)
Definition kvs_set (d : db) (key : bytes) (new : rec) (archive : option bytes) (cb : option rec -> rec -> Z * bool)
    : db * Z * option rec :=
  let k := canonicalize_key key in
  let old := recs d k in
  let (code, ok) := cb old new in
  if ok then
    let m := put (recs d) k (Some new) in
    let m := match archive, old with Some a, Some o => put m (canonicalize_key a) (Some o) | _, _ => m end in
    (Db m (indexed d), code, Some new)
  else (d, code, None).
(* sid_kvs_va_unset with a callback: database and update_arg->ret_code.  It is used in the main process, where no record has a
   sync index, and for deltas, where the index is removed after it. *)
Definition kvs_unset (d : db) (key : bytes) (cb : option rec -> Z * bool) : db * Z :=
  let k := canonicalize_key key in
  let (code, ok) := cb (recs d k) in
  if ok then (Db (put (recs d) k None) (indexed d), code) else (d, code).

(* What a command knows: device, event number and database generation (struct sid_ucmd_ctx, src/resource/ubr.c:256-309) *)
Record ucmd := Ucmd { u_dev : devctx; u_seq : N; u_gen : N }.

(* _check_global_kv_rs_for_wr, src/resource/ubr.c:1607-1662; the flag tests there give a non-zero number, 1 here *)
Definition check_global_kv_rs_for_wr (d : db) (owner : bytes) (dom : option bytes) (n : kv_ns) (core : bytes) : Z :=
  match n with
  | NS_UDEV | NS_DEVICE =>
    match recs d (canonicalize_key (compose_key (reserve_spec dom n core))) with
    | None => 1%Z
    | Some o =>
      if negb (has (r_flags o) FL_RS) then 1%Z
      else
        let bit b := if has (r_flags o) b then 1%Z else 0%Z in
        match mod_match (r_owner o) owner with
        | MOD_NO_MATCH => bit FL_FRG_WR
        | MOD_MATCH | MOD_CORE_MATCH => 1%Z
        | MOD_SUB_MATCH => bit FL_SUB_WR
        | MOD_SUP_MATCH => bit FL_SUP_WR
        end
    end
  | _ => 1%Z
  end.

(* _do_sid_ucmd_kv_set, src/resource/ubr.c:2485-2574: database, return value and the record behind *stored_value.  r is the
   result of a comparison (the assignment at 2553 has the lower precedence), sid_kvs_va_set itself does not fail here.
   With a value and no stored record svalue is NULL and is dereferenced (2565). *)
Definition do_kv_set (d : db) (u : ucmd) (owner : bytes) (dom : option bytes) (n : kv_ns) (core : bytes)
    (value : option bytes) (flags : N) (is_sync : bool) : outcome (db * Z * option rec) :=
  let r := if ns_eqb n NS_UDEV && key_eqb owner OWNER_CORE then 0%Z else check_global_kv_rs_for_wr d owner dom n core in
  if (r <? 0)%Z then Ok (d, r, None)
  else
    let key := compose_key (set_spec (u_dev u) owner dom n core) in
    let flags := if ns_eqb n NS_UDEV then N.lor flags FL_SYNC_P else flags in
    let new := Rec (u_seq u) flags (u_gen u) owner (match value with Some v => [v] | None => [] end) in
    let '(d, code, stored) :=
      kvs_set d (skipn 1 key) new (if has flags FL_AR then Some (with_prefix C_ARCHIVE key) else None) (cb_write is_sync) in
    match value, stored with
    | Some _, None => UB
    | _, _ => Ok (manage_kv_index d code (canonicalize_key (skipn 1 key)), 0%Z, stored)
    end.
(* sid_ucmd_kv_set, src/resource/ubr.c:2576-2591 *)
Definition kv_set (d : db) (u : ucmd) (owner : bytes) (n : kv_ns) (core : bytes) (value : option bytes) (flags : N)
    : outcome (db * Z * option rec) :=
  if ns_eqb n NS_UNDEFINED || bad_name core then Ok (d, (- EINVAL)%Z, None)
  else do_kv_set d u owner (api_dom n) n core value flags false.

(* _cmd_get_key_value, src/resource/ubr.c:2593-2666: the data (None for NULL) and *ret_code; a missing key gives the code of
   sid_kvs_get *)
Definition cmd_get_key_value (d : db) (owner : bytes) (key : bytes) : option (list bytes * N) * Z :=
  match recs d (canonicalize_key key) with
  | None => (None, (- ENOENT)%Z)
  | Some o =>
    let readable :=
      match mod_match (r_owner o) owner with
      | MOD_NO_MATCH => has (r_flags o) FL_FRG_RD
      | MOD_MATCH | MOD_CORE_MATCH => true
      | MOD_SUB_MATCH => has (r_flags o) FL_SUB_RD
      | MOD_SUP_MATCH => has (r_flags o) FL_SUP_RD
      end in
    if readable then (match r_data o with [] => None | l => Some (l, r_flags o) end, 0%Z) else (None, (- EPERM)%Z)
  end.
(* sid_ucmd_kv_get, src/resource/ubr.c:2860-2890 *)
Definition kv_get (d : db) (u : ucmd) (owner : bytes) (n : kv_ns) (core : bytes) (archive : nat) (foreign_mod foreign_dev : option bytes)
    : option (list bytes * N) * Z :=
  if ns_eqb n NS_UNDEFINED || bad_name core then (None, (- EINVAL)%Z)
  else cmd_get_key_value d owner (compose_key (get_spec (u_dev u) owner (api_dom n) n core archive foreign_mod foreign_dev)).

(* _do_sid_ucmd_mod_reserve_kv, src/resource/ubr.c:2892-2955, called by sid_ucmd_kv_reserve (unset false) and
   sid_ucmd_kv_unreserve (2957-2989).  A header with SID_KV_FL_ALIGN does not fit the vector of four (assert at 830, else a
   write outside). *)
Definition do_reserve (d : db) (gen : N) (owner : bytes) (dom : option bytes) (n : kv_ns) (core : bytes) (flags : N)
    (unset is_worker : bool) : outcome (db * Z) :=
  let key := compose_key (reserve_spec dom n core) in
  let is_sync := negb is_worker in
  let flags := if unset then flags else N.lor flags (N.lor FL_RS FL_SYNC_P) in
  if unset && negb is_worker then
    let (d', code) := kvs_unset d key (fun old => cb_reserve is_sync old None owner) in
    Ok (d', if (code <? 0)%Z then (-1)%Z else 0%Z)
  else if has flags FL_ALIGN then UB
  else
    let new := Rec 0 flags gen owner [] in
    let '(d, code, _) := kvs_set d key new None (fun old new => cb_reserve is_sync old (Some new) owner) in
    Ok (manage_kv_index d code (canonicalize_key key), 0%Z).
Definition kv_reserve (d : db) (gen : N) (owner : bytes) (n : kv_ns) (core : bytes) (flags : N) (is_worker : bool) : outcome (db * Z) :=
  if bad_name core then Ok (d, (- EINVAL)%Z) else do_reserve d gen owner (api_dom n) n core flags false is_worker.
Definition kv_unreserve (d : db) (gen : N) (owner : bytes) (n : kv_ns) (core : bytes) (is_worker : bool) : outcome (db * Z) :=
  if bad_name core then Ok (d, (- EINVAL)%Z) else do_reserve d gen owner (api_dom n) n core 0 true is_worker.
