(* The module for blkid, src/modules/ucmd/block/blkid/blkid.c, and its table of types. *)
From Verif Require Import Base Tok_Model UbrKey_Model UbrDb_Model UbrRec_Model Lvm_Model.
Local Open Scope nat_scope.

(* The full name of the module (src/resource/mod-reg.c:50): registry "block" (src/resource/ubr.c:43), module "blkid" *)
Definition MOD_BLKID : bytes := B "/block/blkid".
(* SID_KV_FL_RD, src/include/resource/ucmd-mod.h:153 *)
Definition FL_RD : N := 224.
(* SID_UCMD_KEY_DEVICE_NEXT_MOD, src/include/resource/ucmd-mod.h:163 *)
Definition K_NEXT : bytes := B "SID_NEXT_MOD".
(* keys, src/modules/ucmd/block/blkid/blkid.c:50-69: those of udev in order *)
Definition udev_keys : list bytes :=
  [B "ID_FS_TYPE"; B "ID_FS_USAGE"; B "ID_FS_VERSION"; B "ID_FS_UUID"; B "ID_FS_UUID_ENC"; B "ID_FS_UUID_SUB"; B "ID_FS_UUID_SUB_ENC"; B "ID_FS_LABEL";
   B "ID_FS_LABEL_ENC"; B "ID_PART_TABLE_TYPE"; B "ID_PART_TABLE_UUID"; B "ID_PART_ENTRY_NAME"; B "ID_PART_ENTRY_TYPE"; B "ID_FS_SYSTEM_ID"; B "ID_FS_PUBLISHER_ID";
   B "ID_FS_APPLICATION_ID"; B "ID_FS_BOOT_SYSTEM_ID"].
(* src/modules/ucmd/block/blkid/blkid-type-mapper.gperf:21-99 with the names of src/modules/ucmd/block/blkid/blkid-type.h:12-24 *)
Definition type_table : list (bytes * bytes) := [
  (B "linux_raid_member", B "md"); (B "ddf_raid_member", B "md"); (B "isw_raid_member", B "md");
  (B "lsi_mega_raid_member", B "md"); (B "via_raid_member", B "md"); (B "silicon_medley_raid_member", B "md");
  (B "nvidia_raid_member", B "md"); (B "promise_fasttrack_raid_member", B "md"); (B "hpt45x_raid_member", B "md");
  (B "hpt37x_raid_member", B "md"); (B "adaptec_raid_member", B "md"); (B "jmicron_raid_member", B "md");
  (B "bcache", B "bcache"); (B "bcachefs", B "fs"); (B "ceph_bluestore", B "ceph"); (B "drbd", B "drbd");
  (B "drbdmanage_control_volume", B "drbd"); (B "drbdproxy_datalog", B "drbd"); (B "LVM2_member", B "dm");
  (B "LVM1_member", B "dm"); (B "DM_snapshot_cow", B "dm"); (B "DM_verity_hash", B "dm"); (B "DM_integrity", B "dm");
  (B "crypto_LUKS", B "dm"); (B "VMFS_volume_member", B "fs"); (B "ubi", B "ubi"); (B "vdo", B "vdo");
  (B "stratis", B "stratis"); (B "BitLocker", B "bitlocker"); (B "cs_fvault2", B "filevault"); (B "vfat", B "fs");
  (B "swsuspend", B "fs"); (B "swap", B "fs"); (B "xfs", B "fs"); (B "xfs_external_log", B "fs"); (B "exfs", B "fs");
  (B "ext4dev", B "fs"); (B "ext4", B "fs"); (B "ext3", B "fs"); (B "ext2", B "fs"); (B "jbd", B "fs"); (B "reiserfs", B "fs");
  (B "reiser4", B "fs"); (B "jfs", B "fs"); (B "udf", B "fs"); (B "iso9660", B "fs"); (B "zfs_member", B "fs");
  (B "hfsplus", B "fs"); (B "hfs", B "fs"); (B "ufs", B "fs"); (B "hpfs", B "fs"); (B "sysv", B "fs"); (B "xenix", B "fs");
  (B "ntfs", B "fs"); (B "ReFS", B "fs"); (B "cramfs", B "fs"); (B "romfs", B "fs"); (B "minix", B "fs"); (B "gfs", B "fs");
  (B "gfs2", B "fs"); (B "ocfs", B "fs"); (B "ocfs2", B "fs"); (B "oracleasm", B "fs"); (B "vxfs", B "fs");
  (B "squashfs", B "fs"); (B "squashfs3", B "fs"); (B "nss", B "fs"); (B "btrfs", B "fs"); (B "ubifs", B "fs");
  (B "bfs", B "fs"); (B "VMFS", B "fs"); (B "befs", B "fs"); (B "nilfs2", B "fs"); (B "exfat", B "fs"); (B "f2fs", B "fs");
  (B "mpool", B "fs"); (B "apfs", B "fs"); (B "zonefs", B "fs"); (B "erofs", B "fs")].
(* blkid_type_lookup, made by gperf from that file: an entry with exactly this name *)
Definition type_lookup (t : bytes) : option bytes := match find (fun e => key_eqb (fst e) t) type_table with Some (_, m) => Some m | None => None end.

(* The loops of _blkid_init and _blkid_exit, src/modules/ucmd/block/blkid/blkid.c:77-89 and 101-113 *)
Fixpoint each (f : db -> kv_ns -> bytes -> outcome (db * Z)) (d : db) (l : list (kv_ns * bytes)) : outcome (db * Z) :=
  match l with
  | [] => Ok (d, 0%Z)
  | (n, k) :: l => let! (d, r) := f d n k in if (r <? 0)%Z then Ok (d, (-1)%Z) else each f d l
  end.
Definition reserved_names : list (kv_ns * bytes) := map (fun k => (NS_UDEV, k)) udev_keys ++ [(NS_DEVICE, K_NEXT)].
(* _blkid_init and _blkid_exit, src/modules/ucmd/block/blkid/blkid.c:71-116, in the main process *)
Definition blkid_init (d : db) (gen : N) : outcome (db * Z) := each (fun d n k => kv_reserve d gen MOD_BLKID n k FL_FRG_RD false) d reserved_names.
Definition blkid_exit (d : db) (gen : N) : outcome (db * Z) := each (fun d n k => kv_unreserve d gen MOD_BLKID n k false) d reserved_names.

(* blkid_safe_string(value, s, 256) and blkid_encode_string(value, s, 256) of libblkid: the value and what is in s give what is then in s.
   Their results are not looked at. *)
Record lib := Lib { l_safe : bytes -> bytes -> bytes; l_encode : bytes -> bytes -> bytes }.
(* sid_ucmd_kv_va_set with a string: up to and with its NUL (src/resource/ubr.c:2548); the result is not looked at *)
Definition set_string (d : db) (u : ucmd) (n : kv_ns) (key mem : bytes) (flags : N) : outcome db :=
  let! v := string_at mem in let! (d, _) := str_set d u MOD_BLKID n key v flags in Ok d.
(* The same with a size *)
Definition set_sized (d : db) (u : ucmd) (n : kv_ns) (key mem : bytes) (size : nat) (flags : N) : outcome db :=
  if length mem <? size then UB else let! (d, _, _) := kv_set d u MOD_BLKID n key (Some (firstn size mem)) flags in Ok d.
(* _add_property, src/modules/ucmd/block/blkid/blkid.c:127-271.  junk: the 256 bytes of s before the call.  name and value: strings,
   without their NUL.  The call at 174 gives s as the value, 224 (SID_KV_FL_RD) as the size and no flags: initialisers without a name go
   on after .key, in the order of src/include/resource/ucmd-mod.h:165-172. *)
Definition add_property (l : lib) (d : db) (u : ucmd) (name value junk : bytes) : outcome db :=
  let s := NUL :: tl junk in
  let is x := key_eqb name (B x) in
  let plain k := set_string d u NS_UDEV (B k) (value ++ [NUL]) FL_RD in
  let encoded k := set_string d u NS_UDEV (B k) (l_encode l value s) FL_RD in
  if is "TYPE"%string then
    let! d := plain "ID_FS_TYPE"%string in
    match type_lookup value with
    | Some m => set_string d u NS_DEVICE K_NEXT (m ++ [NUL]) (N.lor FL_SYNC_P FL_RD)
    | None => Ok d
    end
  else if is "USAGE"%string then plain "ID_FS_USAGE"%string
  else if is "VERSION"%string then plain "ID_FS_VERSION"%string
  else if is "UUID"%string then
    let! d := plain "ID_FS_UUID"%string in
    set_sized d u NS_UDEV (B "ID_FS_UUID_ENC") (l_encode l value (l_safe l value s)) (N.to_nat FL_RD) 0
  else if is "UUID_SUB"%string then
    let! d := plain "ID_FS_UUID_SUB"%string in
    set_string d u NS_UDEV (B "ID_FS_UUID_SUB_ENC") (l_encode l value (l_safe l value s)) FL_RD
  else if is "LABEL"%string then
    let s := l_safe l value s in
    let! d := set_string d u NS_UDEV (B "ID_FS_LABEL") s FL_RD in
    set_string d u NS_UDEV (B "ID_FS_LABEL_ENC") (l_encode l value s) FL_RD
  else if is "PTTYPE"%string then plain "ID_PART_TABLE_TYPE"%string
  else if is "PTUUID"%string then plain "ID_PART_TABLE_UUID"%string
  else if is "PART_ENTRY_NAME"%string then encoded "ID_PART_ENTRY_NAME"%string
  else if is "PART_ENTRY_TYPE"%string then encoded "ID_PART_ENTRY_TYPE"%string
  else if key_eqb (firstn 11 name) (B "PART_ENTRY_") then
    set_string d u NS_UDEV (firstn 255 (B "ID_" ++ name)) (value ++ [NUL]) FL_RD
  else if is "SYSTEM_ID"%string then encoded "ID_FS_SYSTEM_ID"%string
  else if is "PUBLISHER_ID"%string then encoded "ID_FS_PUBLISHER_ID"%string
  else if is "APPLICATION_ID"%string then encoded "ID_FS_APPLICATION_ID"%string
  else if is "BOOT_SYSTEM_ID"%string then encoded "ID_FS_BOOT_SYSTEM_ID"%string
  else Ok d.

(* A value found: name, value and the memory of the call; None when blkid_probe_get_value fails *)
Definition found := option (bytes * bytes * bytes).
(* What libblkid gives for a device: fstat (0 or errno), a character device, the size, a whole disk; blkid_do_fullprobe for partitions
   with its values, and blkid_do_safeprobe for superblocks and partitions with its values *)
Record prober := Prober { p_stat : Z; p_char : bool; p_size : N; p_whole : bool; p_full : Z * list found; p_safe : Z * list found }.
(* blkid_probe_lookup_value(pr, "PTTYPE", ...) == 0, src/modules/ucmd/block/blkid/blkid.c:294 *)
Definition has_pttype (l : list found) : bool := existsb (fun f => match f with Some (name, _, _) => key_eqb name (B "PTTYPE") | None => false end) l.
(* _probe_superblocks, src/modules/ucmd/block/blkid/blkid.c:273-302: the result and the values there then are *)
Definition probe_superblocks (p : prober) : Z * list found :=
  if negb (p_stat p =? 0)%Z then ((- p_stat p)%Z, [])
  else if negb (p_char p) && (p_size p <=? 1024 * 1440)%N && p_whole p then
    if (fst (p_full p) <? 0)%Z then p_full p
    else if has_pttype (snd (p_full p)) then (0%Z, snd (p_full p)) else p_safe p
  else p_safe p.
Fixpoint add_properties (l : lib) (d : db) (u : ucmd) (fs : list found) : outcome db :=
  match fs with
  | [] => Ok d
  | None :: fs => add_properties l d u fs
  | Some (name, value, junk) :: fs => let! d := add_property l d u name value junk in add_properties l d u fs
  end.
(* _blkid_scan_next, src/modules/ucmd/block/blkid/blkid.c:304-360.  opened: the probe, the file and blkid_probe_set_device, the first
   negative number of them or 0 (-1 for the first two) *)
Definition blkid_scan_next (l : lib) (d : db) (u : ucmd) (opened : Z) (p : prober) : outcome (db * Z) :=
  if (opened <? 0)%Z then Ok (d, opened)
  else
    let (r, fs) := probe_superblocks p in
    if (r <? 0)%Z then Ok (d, r) else let! d := add_properties l d u fs in Ok (d, 0%Z).
(* The core takes the next module from the record, src/resource/ubr.c:5452-5456: its name, if there is one *)
Definition next_mod (d : db) (u : ucmd) : outcome (option bytes) := str_get d u OWNER_CORE NS_DEVICE K_NEXT None.
