From Verif Require Import Base UtilStr_Model BaseUtil_Model BaseUtil_Spec UbrKey_Model UbrDb_Model UbrPerm_Spec Lvm_Model Lvm_Spec Mpath_Model.
Local Open Scope nat_scope.

(* What the library says of a path: error, not a path, a path if it was not released before, a path, maybe a path *)
Definition answer (r : Z) : Prop := In r [-1; 0; 1; 2; 3]%Z.
(* The records: the variable for udev, and the two values of the module *)
Definition path_var (u : ucmd) : bytes := udev_var (Lvm_Spec.number u) (B "DM_MULTIPATH_DEVICE_PATH").
Definition valid_key (u : ucmd) : bytes := devmod_key (uid u) (B "/block/dm_mpath") (B "VALID").
Definition wwid_key (u : ucmd) : bytes := devmod_key (uid u) (B "/block/dm_mpath") (B "WWID").
Definition mp_record (u : ucmd) (v : bytes) : rec := Rec (u_seq u) 230 (u_gen u) (B "/block/dm_mpath") [v ++ [NUL]].
Definition may_set (d : db) (u : ucmd) : Prop := forall k, In k [path_var u; valid_key u; wwid_key u] -> writable d (B "/block/dm_mpath") k.
(* the pointer is set, to NULL or a string *)
Definition good_wwid (w : option bytes) : Prop := match w with Some w => no_nul w | None => True end.

(* The disk has been scanned with these answers, the last one first: each time by another command, while others change other records
   as they like.  Not each of them is allowed to scan (src/modules/ucmd/block/dm_mpath/dm_mpath.c:104). *)
Inductive history (dev : devctx) : list Z -> db -> Prop :=
| H_start : forall d, (forall u, u_dev u = dev -> recs d (valid_key u) = None /\ may_set d u) -> history dev [] d
| H_scan : forall rs d u disk r w d' code, history dev rs d -> u_dev u = dev -> answer r -> good_wwid w ->
    mpath_scan_next d u true 1 disk 0 r (Some w) = Ok (d', code) -> history dev (r :: rs) d'
| H_else : forall rs d d', history dev rs d -> (forall u, u_dev u = dev -> recs d' (valid_key u) = recs d (valid_key u) /\ may_set d' u) -> history dev rs d'.
(* A path counts as claimed when the last answers, errors aside, were "if not released before", back to a plain "yes" or to the first *)
Definition claimed (rs : list Z) : Prop :=
  exists a b, rs = a ++ b /\ Forall (fun r => r = 1 \/ r = -1)%Z a /\ ((b = [] /\ In 1%Z a) \/ exists b', b = 2%Z :: b').

(* Where a partition looks for the value of its disk *)
Definition disk_valid (devno : bytes) : bytes := B ":USR:D:" ++ devno ++ B ":::VALID".
(* A kernel command line with the argument that turns multipath off *)
Definition turned_off (ws : list bytes) : Prop := exists w, In w ws /\ is_arg (B "nompath") w.
(* the variable is reserved for the module: others may read and not write it *)
Definition held (d : db) : Prop :=
  exists o, recs d (reservation_key NS_UDEV (B "DM_MULTIPATH_DEVICE_PATH")) = Some o /\ r_owner o = B "/block/dm_mpath" /\ is_reserved o /\ flag o 5 /\ ~ flag o 8 /\ ~ flag o 9 /\ ~ flag o 10.
