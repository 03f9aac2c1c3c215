From Verif Require Import Base UbrKey_Model UbrKey_Spec UbrDb_Model UbrPerm_Spec Lvm_Spec Blkid_Model.
Local Open Scope nat_scope.

(* The types each module handles *)
Definition modules : list (bytes * list bytes) := [
  (B "md", [B "linux_raid_member"; B "ddf_raid_member"; B "isw_raid_member"; B "lsi_mega_raid_member"; B "via_raid_member"; B "silicon_medley_raid_member"; B "nvidia_raid_member"; B "promise_fasttrack_raid_member"; B "hpt45x_raid_member"; B "hpt37x_raid_member"; B "adaptec_raid_member"; B "jmicron_raid_member"]);
  (B "bcache", [B "bcache"]);
  (B "fs", [B "bcachefs"; B "VMFS_volume_member"; B "vfat"; B "swsuspend"; B "swap"; B "xfs"; B "xfs_external_log"; B "exfs"; B "ext4dev"; B "ext4"; B "ext3"; B "ext2"; B "jbd";
    B "reiserfs"; B "reiser4"; B "jfs"; B "udf"; B "iso9660"; B "zfs_member"; B "hfsplus"; B "hfs"; B "ufs"; B "hpfs"; B "sysv"; B "xenix"; B "ntfs"; B "ReFS";
    B "cramfs"; B "romfs"; B "minix"; B "gfs"; B "gfs2"; B "ocfs"; B "ocfs2"; B "oracleasm"; B "vxfs"; B "squashfs"; B "squashfs3"; B "nss";
    B "btrfs"; B "ubifs"; B "bfs"; B "VMFS"; B "befs"; B "nilfs2"; B "exfat"; B "f2fs"; B "mpool"; B "apfs"; B "zonefs"; B "erofs"]);
  (B "ceph", [B "ceph_bluestore"]);
  (B "drbd", [B "drbd"; B "drbdmanage_control_volume"; B "drbdproxy_datalog"]);
  (B "dm", [B "LVM2_member"; B "LVM1_member"; B "DM_snapshot_cow"; B "DM_verity_hash"; B "DM_integrity"; B "crypto_LUKS"]);
  (B "ubi", [B "ubi"]);
  (B "vdo", [B "vdo"]);
  (B "stratis", [B "stratis"]);
  (B "bitlocker", [B "BitLocker"]);
  (B "filevault", [B "cs_fvault2"])].
Definition handles (m t : bytes) : Prop := exists ts, In (m, ts) modules /\ In t ts.
Definition unknown (t : bytes) : Prop := forall m, ~ handles m t.

(* Which udev variable gets which text of a value: as it is, made safe or encoded *)
Inductive how := Plain | Safe | Encoded.
Definition variables : list (string * how * string) := [
  ("TYPE", Plain, "ID_FS_TYPE"); ("USAGE", Plain, "ID_FS_USAGE"); ("VERSION", Plain, "ID_FS_VERSION"); ("UUID", Plain, "ID_FS_UUID");
  ("UUID_SUB", Plain, "ID_FS_UUID_SUB"); ("UUID_SUB", Encoded, "ID_FS_UUID_SUB_ENC"); ("LABEL", Safe, "ID_FS_LABEL"); ("LABEL", Encoded, "ID_FS_LABEL_ENC");
  ("PTTYPE", Plain, "ID_PART_TABLE_TYPE"); ("PTUUID", Plain, "ID_PART_TABLE_UUID"); ("PART_ENTRY_NAME", Encoded, "ID_PART_ENTRY_NAME");
  ("PART_ENTRY_TYPE", Encoded, "ID_PART_ENTRY_TYPE"); ("SYSTEM_ID", Encoded, "ID_FS_SYSTEM_ID"); ("PUBLISHER_ID", Encoded, "ID_FS_PUBLISHER_ID");
  ("APPLICATION_ID", Encoded, "ID_FS_APPLICATION_ID"); ("BOOT_SYSTEM_ID", Encoded, "ID_FS_BOOT_SYSTEM_ID")]%string.
(* The texts libblkid makes of a value *)
Record texts := Texts { safe_text : bytes -> bytes; enc_text : bytes -> bytes }.
Definition text (t : texts) (h : how) (v : bytes) : bytes := match h with Plain => v | Safe => safe_text t v | Encoded => enc_text t v end.
(* f writes the string t for v into each buffer of 256 bytes *)
Definition fills (f : bytes -> bytes -> bytes) (v t : bytes) : Prop :=
  no_nul t /\ forall buf, length buf = 256 -> exists rest, f v buf = t ++ NUL :: rest /\ length (f v buf) = 256.
Definition makes (l : lib) (t : texts) (v : bytes) : Prop := fills (l_safe l) v (safe_text t v) /\ fills (l_encode l) v (enc_text t v).
(* The values found, in order *)
Definition good_value (l : lib) (t : texts) (f : found) : Prop :=
  match f with Some (name, value, junk) => no_nul name /\ no_nul value /\ length junk = 256 /\ makes l t value | None => True end.

Definition blk_record (u : ucmd) (f : N) (x : bytes) : rec := Rec (u_seq u) f (u_gen u) (B "/block/blkid") [x].
Definition next_key (u : ucmd) : bytes := B ":USR:D:" ++ uid u ++ B ":::SID_NEXT_MOD".
(* Every record of the device that the module sets is absent or allows it *)
Definition may_set (d : db) (u : ucmd) : Prop := (forall k, writable d (B "/block/blkid") (udev_var (number u) k)) /\ writable d (B "/block/blkid") (next_key u).
(* The last value of a name, and the last type a module handles *)
Fixpoint last_named (s : bytes) (fs : list found) : option bytes :=
  match fs with
  | [] => None
  | f :: fs => match last_named s fs, f with Some v, _ => Some v | None, Some (name, v, _) => if list_eq_dec ascii_dec name s then Some v else None | None, None => None end
  end.
(* The other names of values of partitions *)
Definition partition_name (rest : bytes) : Prop := rest <> B "NAME" /\ rest <> B "TYPE" /\ length rest <= 240.
(* The variables of the table, that of the encoded UUID and those of partitions *)
Definition blkid_variable (k : bytes) : Prop :=
  (exists s h x, In (s, h, x) variables /\ k = B x) \/ k = B "ID_FS_UUID_ENC" \/ exists rest, k = B "ID_PART_ENTRY_" ++ rest.
(* The names the module reserves for itself: the variables of the table, that of the encoded UUID, and the next module *)
Definition reserves (n : kv_ns) (k : bytes) : Prop :=
  (n = NS_UDEV /\ ((exists s h x, In (s, h, x) variables /\ k = B x) \/ k = B "ID_FS_UUID_ENC")) \/ (n = NS_DEVICE /\ k = B "SID_NEXT_MOD").
(* A reservation of the module that others may read and not write *)
Definition held (d : db) (n : kv_ns) (k : bytes) : Prop :=
  exists o, recs d (reservation_key n k) = Some o /\ r_owner o = B "/block/blkid" /\ is_reserved o /\ flag o 5 /\ ~ flag o 8 /\ ~ flag o 9 /\ ~ flag o 10.
