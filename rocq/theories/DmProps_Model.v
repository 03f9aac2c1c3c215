From Verif Require Import Base BaseUtil_Model UbrKey_Model UbrDb_Model UbrDelta_Model UbrRec_Model UbrScan_Model Lvm_Model Dm_Model.
Local Open Scope nat_scope.

(* DM_U_NAME and DM_U_UUID, src/modules/ucmd/type/dm/dm.c:104-105 *)
Definition U_NAME : bytes := B "DM_NAME". Definition U_UUID : bytes := B "DM_UUID".
(* ALS_NAME and ALS_UUID, src/modules/ucmd/type/dm/dm.c:111-112 *)
Definition ALS_NAME : bytes := B "name". Definition ALS_UUID : bytes := B "uuid".

(* _get_sysfs_value, src/modules/ucmd/type/dm/dm.c:314-330: result and buffer.  Simplification: the file is found under the path
   built from the device, its content is given here *)
Definition get_sysfs_value (file : Z + bytes) (buf : bytes) : outcome (Z * bytes) :=
  let! (r, buf, _) := sysfs_get file buf in
  if (r <? 0)%Z then Ok (r, buf) else Ok (0%Z, buf).
(* Is the first byte of the buffer other than NUL *)
Definition set_ (buf : bytes) : outcome bool := match buf with [] => UB | c :: _ => Ok (negb (Ascii.eqb c NUL)) end.
(* sid_ucmd_kv_va_set of the string in a buffer *)
Definition buf_set (d : db) (u : ucmd) (n : kv_ns) (core buf : bytes) (flags : N) : outcome (db * Z) :=
  let! v := string_at buf in str_set d u MOD_DM n core v flags.
(* sid_ucmd_dev_alias_add, src/resource/ubr.c:3419-3439, of the string in a buffer *)
Definition buf_alias (d : db) (u : ucmd) (cat buf : bytes) : outcome (db * Z) :=
  let! v := string_at buf in gstep d (AliasAdd u MOD_DM cat v).

(* _get_sysfs_props, src/modules/ucmd/type/dm/dm.c:332-414, with the files dm/uuid, dm/name and dm/suspended of the device and what
   is in the three buffers before *)
Definition get_sysfs_props (d : db) (u : ucmd) (f_uuid f_name f_susp : Z + bytes) (uuid name susp : bytes) : outcome (db * Z) :=
  let! (r, uuid) := get_sysfs_value f_uuid uuid in
  if (r <? 0)%Z then Ok (d, (-1)%Z) else
  let! (r, name) := get_sysfs_value f_name name in
  if (r <? 0)%Z then Ok (d, (-1)%Z) else
  let! n := set_ name in
  if negb n then Ok (d, (-1)%Z) else
  let! (r, susp) := get_sysfs_value f_susp susp in
  if (r <? 0)%Z then Ok (d, (-1)%Z) else
  let! s := set_ susp in
  if negb s then Ok (d, (-1)%Z) else
  let! n := set_ uuid in
  let! (d, r) := if n then buf_alias d u ALS_UUID uuid else Ok (d, 0%Z) in
  if (r <? 0)%Z then Ok (d, (-1)%Z) else
  let! (d, r) := buf_alias d u ALS_NAME name in
  if (r <? 0)%Z then Ok (d, (-1)%Z) else
  let! (d, r) := buf_set d u NS_DEVMOD K_UUID uuid (N.lor FL_SYNC FL_SUB_RD) in
  if (r <? 0)%Z then Ok (d, (-1)%Z) else
  let! (d, r) := buf_set d u NS_DEVMOD K_NAME name (N.lor FL_SYNC FL_SUB_RD) in
  if (r <? 0)%Z then Ok (d, (-1)%Z) else
  let! (d, r) := if n then buf_set d u NS_UDEV U_UUID uuid FL_SYNC_P else Ok (d, 0%Z) in
  if (r <? 0)%Z then Ok (d, (-1)%Z) else
  let! (d, r) := buf_set d u NS_UDEV U_NAME name FL_SYNC_P in
  if (r <? 0)%Z then Ok (d, (-1)%Z) else
  let! (d, r) := buf_set d u NS_UDEV U_SUSPENDED susp FL_SYNC_P in
  if (r <? 0)%Z then Ok (d, (-1)%Z) else Ok (d, 0%Z).

(* _dm_scan_a_init, src/modules/ucmd/type/dm/dm.c:571-579, with _dm_submod_common_scan_init as in C103 *)
Definition dm_scan_a_init (s : scan) (u : ucmd) (l : list submod) (f_uuid f_name f_susp : Z + bytes) (uuid name susp : bytes)
    : outcome (scan * option submod * Z) :=
  let! (d, r) := get_sysfs_props (sc_db s) u f_uuid f_name f_susp uuid name susp in
  let s := with_db s d in
  if (r <? 0)%Z then Ok (s, None, (-1)%Z) else submod_init s u l.
