(* The module for paths of multipath devices, src/modules/ucmd/block/dm_mpath/dm_mpath.c. *)
From Verif Require Import Base Tok_Model UtilStr_Model BaseUtil_Model UbrKey_Model UbrDb_Model UbrRec_Model Lvm_Model.
Local Open Scope nat_scope.

(* The full name of the module (src/resource/mod-reg.c:50): registry "block" (src/resource/ubr.c:43), module "dm_mpath" *)
Definition MOD_MPATH : bytes := B "/block/dm_mpath".
(* src/modules/ucmd/block/dm_mpath/dm_mpath.c:17-19 *)
Definition U_DEV_PATH : bytes := B "DM_MULTIPATH_DEVICE_PATH".
Definition X_VALID : bytes := B "VALID".
Definition X_WWID : bytes := B "WWID".
(* SID_KV_FL_RD, src/include/resource/ucmd-mod.h:153, and with SID_KV_FL_SYNC_P *)
Definition FL_RD : N := 224.
Definition FL_RD_SYNC_P : N := N.lor FL_RD FL_SYNC_P.
(* The results of mpathvalid_is_path, <mpath_valid.h> of the multipath library, used at
   src/modules/ucmd/block/dm_mpath/dm_mpath.c:124-150; a fifth, MPATH_IS_MAYBE_VALID = 3, has no name there *)
Definition IS_ERROR : Z := -1.
Definition IS_NOT_VALID : Z := 0.
Definition IS_VALID : Z := 1.
Definition IS_VALID_NO_CHECK : Z := 2.

(* strtol(s, &p, 10), C standard 7.22.1.4, as strtoull of BaseUtil_Model: the value, whether errno is set, and what p points to *)
Definition LONG_MAX : N := 9223372036854775807.
Definition strtol (s : bytes) : Z * bool * bytes :=
  let t := skipn (span isspace s) s in
  let '(neg, t) := match t with
                   | c :: t' => if Ascii.eqb c "-"%char then (true, t') else if Ascii.eqb c "+"%char then (false, t') else (false, t)
                   | [] => (false, t) end in
  let n := span isdigit t in
  if n =? 0 then (0%Z, false, s) else
  let v := digits_value 0 (firstn n t) in
  if (LONG_MAX + (if neg then 1 else 0) <? v)%N then (if neg then (- Z.of_N LONG_MAX - 1)%Z else Z.of_N LONG_MAX, true, skipn n t)
  else (if neg then (- Z.of_N v)%Z else Z.of_N v, false, skipn n t).
(* to an int, src/modules/ucmd/block/dm_mpath/dm_mpath.c:84 and 132 *)
Definition to_int (v : Z) : Z := (let w := v mod 4294967296 in if w <? 2147483648 then w else w - 4294967296)%Z.
(* src/modules/ucmd/block/dm_mpath/dm_mpath.c:83-85 and 131-135: the number a text stands for, None for garbage *)
Definition text_number (s : bytes) : option Z := let '(v, err, p) := strtol s in match p with [] => if err then None else Some (to_int v) | _ => None end.

(* _kernel_cmdline_allow, src/modules/ucmd/block/dm_mpath/dm_mpath.c:55-64.  buf: the text sid_util_kernel_get_arg has kept; c1 and c2:
   what reading /proc/cmdline gives in the first and second call, if they read it *)
Definition kernel_cmdline_allow (buf : bytes) (c1 c2 : Z + list read_event * bytes) : bool :=
  let '(found, _, _, buf) := kernel_get_arg buf c1 (Some (B "nompath")) false in
  if found then false
  else
    let '(found, value, _, _) := kernel_get_arg buf c2 (Some (B "nompath")) true in
    if negb found then true
    else match value with Some v => negb (key_eqb v (B "off")) | None => false end.

(* sid_ucmd_kv_va_set with a string; its result is not looked at *)
Definition put_string (d : db) (u : ucmd) (n : kv_ns) (key value : bytes) (flags : N) : outcome db :=
  let! (d, _) := str_set d u MOD_MPATH n key value flags in Ok d.

(* _is_parent_multipathed, src/modules/ucmd/block/dm_mpath/dm_mpath.c:73-94.  disk: the number of the disk, None when
   _part_get_whole_disk fails; sid_ucmd_kv_get_disk_part, src/resource/ubr.c:4764-4785 *)
Definition is_parent_multipathed (d : db) (u : ucmd) (disk : option bytes) : outcome (db * Z) :=
  match disk with
  | None => Ok (d, 0%Z)
  | Some devno =>
    match fst (cmd_get_key_value d MOD_MPATH (compose_key (disk_spec devno X_VALID))) with
    | None => Ok (d, 0%Z)
    | Some ([], _) => UB
    | Some (x :: _, _) =>
      let! v := string_at x in
      match v with
      | [] => Ok (d, 0%Z)
      | _ => match text_number v with
             | Some n => if (n =? IS_VALID)%Z then let! d := put_string d u NS_UDEV U_DEV_PATH (B "1") FL_RD in Ok (d, 0%Z) else Ok (d, 0%Z)
             | None => Ok (d, 0%Z)
             end
      end
    end
  end.

(* src/modules/ucmd/block/dm_mpath/dm_mpath.c:124-143: what becomes of the result of the library *)
Definition final_result (d : db) (u : ucmd) (r : Z) : outcome Z :=
  if (r =? IS_VALID)%Z then
    let! old := str_get d u MOD_MPATH NS_DEVMOD X_VALID None in
    Ok match old with
       | None | Some [] => r
       | Some s => match text_number s with Some v => if (v =? IS_VALID)%Z then r else IS_NOT_VALID | None => IS_NOT_VALID end
       end
  else Ok (if (r =? IS_VALID_NO_CHECK)%Z then IS_VALID else r).
(* snprintf(valid_str, 2, "%d", r), src/modules/ucmd/block/dm_mpath/dm_mpath.c:150: the text if it fits *)
Definition one_digit (r : Z) : option bytes := if (0 <=? r)%Z && (r <? 10)%Z then Some [ascii_of_N (48 + Z.to_N r)] else None.
(* The rest of the scan, src/modules/ucmd/block/dm_mpath/dm_mpath.c:145-166.  wwid: None when the library has not set the pointer,
   which is not initialised (99) *)
Definition store_result (d : db) (u : ucmd) (r : Z) (wwid : option (option bytes)) : outcome (db * Z) :=
  let! d := (if (r =? IS_VALID)%Z then put_string d u NS_UDEV U_DEV_PATH (B "1") FL_RD
             else if negb (r =? IS_ERROR)%Z then put_string d u NS_UDEV U_DEV_PATH (B "0") FL_RD else Ok d) in
  let! d := (if negb (r =? IS_ERROR)%Z then match one_digit r with Some s => put_string d u NS_DEVMOD X_VALID s FL_RD_SYNC_P | None => Ok d end else Ok d) in
  match wwid with
  | None => UB
  | Some w =>
    let! d := match w with Some w => put_string d u NS_DEVMOD X_WWID w FL_RD_SYNC_P | None => Ok d end in
    Ok (d, if negb (r =? IS_ERROR)%Z then 0%Z else (-1)%Z)
  end.
(* _dm_mpath_scan_next, src/modules/ucmd/block/dm_mpath/dm_mpath.c:96-167.  type: the type of the device (src/include/internal/common.h:42-46);
   reload: the result of mpathvalid_reload_config; r and wwid: what mpathvalid_is_path gives *)
Definition mpath_scan_next (d : db) (u : ucmd) (allowed : bool) (type : nat) (disk : option bytes) (reload r : Z) (wwid : option (option bytes)) : outcome (db * Z) :=
  if negb allowed then Ok (d, 0%Z)
  else if type =? UDEV_DEVTYPE_PARTITION then is_parent_multipathed d u disk
  else if type =? UDEV_DEVTYPE_UNKNOWN then Ok (d, 0%Z)
  else if (reload <? 0)%Z then Ok (d, (-1)%Z)
  else let! r := final_result d u r in store_result d u r wwid.

(* _dm_mpath_init, src/modules/ucmd/block/dm_mpath/dm_mpath.c:21-40: lib is the result of mpathvalid_init, the bool whether the library
   stays initialised; _dm_mpath_exit,
   src/modules/ucmd/block/dm_mpath/dm_mpath.c:43-52.  In the main process. *)
Definition mpath_init (d : db) (gen : N) (lib : Z) : outcome (db * bool * Z) :=
  if negb (lib =? 0)%Z then Ok (d, false, (-1)%Z)
  else
    let! (d, r) := kv_reserve d gen MOD_MPATH NS_UDEV U_DEV_PATH FL_FRG_RD false in
    if (r <? 0)%Z then Ok (d, false, (-1)%Z) else Ok (d, true, 0%Z).
Definition mpath_exit (d : db) (gen : N) : outcome (db * bool * Z) :=
  let! (d, _) := kv_unreserve d gen MOD_MPATH NS_UDEV U_DEV_PATH false in Ok (d, false, 0%Z).
