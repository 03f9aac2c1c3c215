(* The functions the module for device-mapper gives for the phases of a scan, and a scan with both its stages. *)
From Verif Require Import Base UbrDb_Model UbrDelta_Model UbrScan_Model UbrExec_Model Lvm_Model Dm_Model DmProps_Model.
Local Open Scope nat_scope.

(* What the module works with: the event (sid_ucmd_ev_get_dev_synth_uuid != NULL and the action), the semaphores, its submodules, the files
   in sysfs with the buffers for them, and what the submodule of the device does in a phase (submod_res_current).  Simplification:
   dp_sub is given, not looked up among the submodules; what it does is arbitrary. *)
Record dm_par := DmPar { dp_ucmd : ucmd; dp_synth : bool; dp_action : action; dp_sems : sems; dp_subs : list submod;
  dp_uuid : Z + bytes; dp_name : Z + bytes; dp_susp : Z + bytes; dp_buuid : bytes; dp_bname : bytes; dp_bsusp : bytes;
  dp_sub : nat -> scan -> outcome (scan * Z) }.
(* _exec_dm_submod for the submodule of the device, src/modules/ucmd/type/dm/dm.c:234-236 *)
Definition sub_run (q : dm_par) (p : nat) (s : scan) : outcome (scan * Z) :=
  let! (s, r) := dp_sub q p s in Ok (s, if (r <? 0)%Z then (-1)%Z else 0%Z).
(* _dm_scan_remove_init, src/modules/ucmd/type/dm/dm.c:963-974 *)
Definition dm_remove_init (q : dm_par) (s : scan) : outcome (scan * Z) :=
  let! (d, r, _) := get_cookie_props (sc_db s) (dp_ucmd q) in
  let s := with_db s d in
  if (r <? 0)%Z then Ok (s, (-1)%Z) else
  let! (s, _, r) := submod_init s (dp_ucmd q) (dp_subs q) in
  if (r <? 0)%Z then Ok (s, (-1)%Z) else sub_run q REMOVE_INIT s.
(* The table of functions: _dm_scan_a_init, src/modules/ucmd/type/dm/dm.c:571-578; _dm_scan_pre, 672-840; _dm_scan_current, 843-847;
   _dm_scan_next, 850-858; _dm_scan_post_current, 861-867; _dm_scan_post_next, 870-874; _dm_scan_a_exit, 877-960; _dm_scan_remove_init,
   963-974; _dm_scan_remove, 978-983; _dm_scan_remove_exit, 986-990; _dm_scan_b_init, 994-998; _dm_scan_action_current, 1037-1050;
   _dm_scan_action_next, 1053-1057; _dm_scan_b_exit, 1060-1064; _dm_scan_error, 1068-1072.
   A function gives the scan, the return value and the semaphores lowered; most lower none (quiet). *)
Definition quiet (f : scan -> outcome (scan * Z)) : scan -> outcome (scan * Z * list nat) := fun s => let! (s, r) := f s in Ok (s, r, []).
Definition dm_step (q : dm_par) (p : nat) : scan -> outcome (scan * Z * list nat) :=
  match p with
  | 0 => fun s => let! (s, _, r) := dm_scan_a_init s (dp_ucmd q) (dp_subs q) (dp_uuid q) (dp_name q) (dp_susp q) (dp_buuid q) (dp_bname q) (dp_bsusp q) in Ok (s, r, [])
  | 1 => quiet (fun s => dm_scan_pre s (dp_ucmd q) (dp_synth q) (dp_action q) (dp_sub q 1))
  | 3 => fun s => let! (s, _, r) := dm_scan_next s (dp_subs q) in Ok (s, r, [])
  | 4 => fun s => let! (s, _) := sub_run q 4 s in Ok (s, 0%Z, [])
  | 6 => quiet (fun s => dm_scan_a_exit s (dp_ucmd q))
  | 7 => quiet (dm_remove_init q)
  | 11 => fun s => dm_action_current s (dp_ucmd q) (dp_sems q) (dp_sub q 11)
  | 14 => fun s => Ok (s, 0%Z, [])
  | p => quiet (sub_run q p)
  end.
(* The same without the semaphores: what the core sees *)
Definition dm_fn (q : dm_par) (p : nat) (s : scan) : outcome (scan * Z) := let! (s, r, _) := dm_step q p s in Ok (s, r).
(* A scan: the first stage; if it did not fail, its results go out (export: _build_cmd_kv_buffers, src/resource/ubr.c:1292-1560, which
   changes records with SID_KV_FL_SYNC only) and the client asks for the second (5911-5970).  Simplification: the client does ask. *)
Definition scan_command (e : env) (export : scan -> scan) (remove : bool) (x : xst) : outcome (xst * Z) :=
  let! (x, c) := exec_scan e 1 remove x in
  if (c <? 0)%Z then Ok (x, c) else exec_scan e 2 remove (with_scan x (export (x_scan x))).
