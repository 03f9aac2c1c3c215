(* Phases of a scan and the ready and reserved states of its device, src/resource/ubr.c. *)
From Verif Require Import Base Kvs_Model UbrKey_Model UbrDb_Model UbrDelta_Model UbrRec_Model.
Local Open Scope nat_scope.

(* cmd_scan_phase_t, src/resource/ubr.c:139-158 *)
Definition A_INIT : nat := 0. Definition A_SCAN_PRE : nat := 1. Definition A_SCAN_CURRENT : nat := 2. Definition A_SCAN_NEXT : nat := 3.
Definition A_SCAN_POST_CURRENT : nat := 4. Definition A_SCAN_POST_NEXT : nat := 5. Definition A_EXIT : nat := 6.
Definition REMOVE_INIT : nat := 7. Definition REMOVE_CURRENT : nat := 8. Definition REMOVE_EXIT : nat := 9.
Definition B_INIT : nat := 10. Definition B_ACTION_CURRENT : nat := 11. Definition B_ACTION_NEXT : nat := 12. Definition B_EXIT : nat := 13.
Definition PHASE_ERROR : nat := 14.
(* CMD_SCAN_CAP_*, src/resource/ubr.c:518-520 *)
Definition CAP_RDY : N := 1. Definition CAP_RES : N := 2. Definition CAP_ALL : N := 4294967295.
(* flags of _cmd_scan_phase_regs, src/resource/ubr.c:5589-5621 *)
Definition phase_flags (p : nat) : N :=
  match p with
  | 0 => CAP_ALL | 1 => CAP_RDY | 2 => CAP_RDY | 3 => CAP_RES | 4 => 0%N | 5 => 0%N | 6 => CAP_ALL
  | 7 => N.lor CAP_RDY CAP_RES | 8 => 0%N | 9 => 0%N
  | 10 => CAP_ALL | 11 => 0%N | 12 => 0%N | 13 => 0%N
  | _ => 0%N
  end.

(* _cmd_exec_scan, src/resource/ubr.c:5623-5708: the phases executed and the return value.  exec gives the result of a phase after
   the phases executed before it.  The loop runs at most fuel times (None otherwise, which does not happen). *)
Definition init_or_exit (p : nat) : bool :=
  (p =? A_INIT) || (p =? B_INIT) || (p =? REMOVE_INIT) || (p =? A_EXIT) || (p =? B_EXIT) || (p =? REMOVE_EXIT).
Fixpoint scan_loop (fuel : nat) (exec : list nat -> nat -> Z) (exit_phase phase phase_end : nat) (done : list nat) : option (list nat * Z) :=
  match fuel with
  | O => None
  | S fuel =>
    if phase <=? phase_end then
      let r := exec done phase in
      let done := done ++ [phase] in
      if (r =? 0)%Z || (r =? 1)%Z then scan_loop fuel exec exit_phase (S phase) phase_end done
      else if init_or_exit phase then Some (done, (-1)%Z)
      else scan_loop fuel exec exit_phase (S exit_phase) phase_end (done ++ [PHASE_ERROR; exit_phase])
    else Some (done, 0%Z)
  end.
Definition cmd_exec_scan (exec : list nat -> nat -> Z) (stage : nat) (remove : bool) : option (list nat * Z) :=
  match stage with
  | 1 => if remove then scan_loop 16 exec REMOVE_EXIT REMOVE_INIT REMOVE_EXIT [] else scan_loop 16 exec A_EXIT A_INIT A_EXIT []
  | 2 => scan_loop 16 exec B_EXIT B_INIT B_EXIT []
  | _ => Some ([], (-1)%Z)
  end.

(* sid_dev_ready_t and sid_dev_reserved_t, src/include/resource/ucmd-mod.h:220-246 *)
Definition RDY_UNDEFINED : N := 0. Definition RDY_REMOVED : N := 1. Definition RDY_UNPROCESSED : N := 2. Definition RDY_UNCONFIGURED : N := 3.
Definition RDY_UNINITIALIZED : N := 4. Definition RDY_PRIVATE : N := 5. Definition RDY_FLAT : N := 6. Definition RDY_UNAVAILABLE : N := 7.
Definition RDY_PUBLIC : N := 8.
Definition RES_UNDEFINED : N := 0. Definition RES_UNPROCESSED : N := 1. Definition RES_RESERVED : N := 2. Definition RES_USED : N := 3.
Definition RES_FREE : N := 4.
(* KV_KEY_DEV_READY and KV_KEY_DEV_RESERVED, src/resource/ubr.c:85-86 *)
Definition K_READY : bytes := B "#RDY".
Definition K_RESERVED : bytes := B "#RES".

(* What a scan command keeps: the database, ucmd_ctx->scan.phase, scan.dev_ready and scan.dev_reserved *)
Record scan := Scan { sc_db : db; sc_phase : nat; sc_ready : N; sc_reserved : N }.
Definition state_flags (is_sync : bool) : N := N.lor (if is_sync then 0 else FL_SYNC) (N.lor FL_AR (N.lor FL_RD (N.lor FL_SUB_WR FL_SUP_WR))).

(* The switches at src/resource/ubr.c:3020-3056 and 3165-3184: true when the change is refused; a number outside of the enumeration
   matches no case *)
Definition ready_refused (old new : N) : bool :=
  match new with
  | 0 => true
  | 1 => (old =? RDY_UNDEFINED)
  | 2 => negb (old =? RDY_UNDEFINED)
  | 3 => negb (old =? RDY_UNPROCESSED)
  | 4 | 5 | 6 | 7 | 8 => (old =? RDY_UNDEFINED)
  | _ => false
  end%N.
Definition reserved_refused (old new : N) : bool :=
  match new with 0 => true | 1 => negb (old =? RES_UNDEFINED) | _ => false end%N.

(* _do_sid_ucmd_dev_set_ready, src/resource/ubr.c:3001-3088, and _do_sid_ucmd_dev_set_reserved, 3146-3216.  The logging at the end
   takes the names of both states from a table: a number that is not in it is read outside.  is_sync changes the flags only, the update
   itself is never marked as one of a sync (2551). *)
Definition set_ready (s : scan) (u : ucmd) (owner : bytes) (ready : N) (is_sync : bool) : outcome (scan * Z) :=
  if ((8 <? ready) || (8 <? sc_ready s))%N then UB
  else if negb (has (phase_flags (sc_phase s)) CAP_RDY) then Ok (s, (- EPERM)%Z)
  else if (ready =? sc_ready s)%N then Ok (s, 0%Z)
  else if ready_refused (sc_ready s) ready then Ok (s, (- EBADRQC)%Z)
  else
    let! (d, r, _) := do_kv_set (sc_db s) u owner None NS_DEVICE K_READY (Some (le 4 ready)) (state_flags is_sync) false in
    Ok (Scan d (sc_phase s) (if (r <? 0)%Z then sc_ready s else ready) (sc_reserved s), r).
Definition set_reserved (s : scan) (u : ucmd) (owner : bytes) (reserved : N) (is_sync : bool) : outcome (scan * Z) :=
  if ((4 <? reserved) || (4 <? sc_reserved s))%N then UB
  else if negb (has (phase_flags (sc_phase s)) CAP_RES) then Ok (s, (- EPERM)%Z)
  else if (reserved =? sc_reserved s)%N then Ok (s, 0%Z)
  else if reserved_refused (sc_reserved s) reserved then Ok (s, (- EBADRQC)%Z)
  else
    let! (d, r, _) := do_kv_set (sc_db s) u owner None NS_DEVICE K_RESERVED (Some (le 4 reserved)) (state_flags is_sync) false in
    Ok (Scan d (sc_phase s) (sc_ready s) (if (r <? 0)%Z then sc_reserved s else reserved), r).

(* memcpy of an int from the data of a record *)
Definition read_int (v : option (list bytes * N)) : outcome (option N) :=
  match v with
  | None => Ok None
  | Some (x :: _, _) => if length x <? 4 then UB else Ok (Some (unle (firstn 4 x)))
  | Some ([], _) => UB
  end.
(* _do_sid_ucmd_dev_get_ready, src/resource/ubr.c:3102-3132, and _do_sid_ucmd_dev_get_reserved, 3230-3262 *)
Definition get_int (d : db) (u : ucmd) (owner core : bytes) (archive : nat) : outcome (option N) :=
  read_int (fst (cmd_get_key_value d owner (compose_key (get_spec (u_dev u) owner None NS_DEVICE core archive None None)))).
Definition get_ready (s : scan) (u : ucmd) (owner : bytes) (archive : nat) : outcome (scan * N) :=
  if negb (archive =? 0) then
    let! v := get_int (sc_db s) u owner K_READY archive in Ok (s, match v with Some n => n | None => RDY_UNDEFINED end)
  else if (sc_ready s =? RDY_UNDEFINED)%N then
    let! v := get_int (sc_db s) u owner K_READY 0 in
    let n := match v with Some n => n | None => sc_ready s end in
    Ok (Scan (sc_db s) (sc_phase s) n (sc_reserved s), n)
  else Ok (s, sc_ready s).
Definition get_reserved (s : scan) (u : ucmd) (owner : bytes) (archive : nat) : outcome (scan * N) :=
  if negb (archive =? 0) then
    let! v := get_int (sc_db s) u owner K_RESERVED archive in Ok (s, match v with Some n => n | None => RES_UNDEFINED end)
  else if (sc_reserved s =? RES_UNDEFINED)%N then
    let! v := get_int (sc_db s) u owner K_RESERVED 0 in
    let n := match v with Some n => n | None => sc_reserved s end in
    Ok (Scan (sc_db s) (sc_phase s) (sc_ready s) n, n)
  else Ok (s, sc_reserved s).

(* What core and modules do with the states and with other records during a command *)
Inductive request :=
| SetReady (owner : bytes) (n : N)
| SetReserved (owner : bytes) (n : N)
| GetReady (owner : bytes) (archive : nat)
| GetReserved (owner : bytes) (archive : nat)
| EnterPhase (p : nat)
| KvSet (owner : bytes) (n : kv_ns) (core : bytes) (value : option bytes) (flags : N)
| KvReserve (owner : bytes) (n : kv_ns) (core : bytes) (flags : N)
| KvUnreserve (owner : bytes) (n : kv_ns) (core : bytes).
Definition with_db (s : scan) (d : db) : scan := Scan d (sc_phase s) (sc_ready s) (sc_reserved s).
(* sid_ucmd_dev_set_ready etc. (src/resource/ubr.c:3090-3100, 3134-3144, 3218-3228, 3264-3274), sid_ucmd_kv_set, sid_ucmd_kv_reserve
   and sid_ucmd_kv_unreserve in a worker: new state and return value *)
Definition req_step (s : scan) (u : ucmd) (q : request) : outcome (scan * Z) :=
  match q with
  | SetReady owner n => set_ready s u owner n false
  | SetReserved owner n => set_reserved s u owner n false
  | GetReady owner a => let! (s, n) := get_ready s u owner a in Ok (s, Z.of_N n)
  | GetReserved owner a => let! (s, n) := get_reserved s u owner a in Ok (s, Z.of_N n)
  | EnterPhase p => Ok (Scan (sc_db s) p (sc_ready s) (sc_reserved s), 0%Z)
  | KvSet owner n core value flags => let! (d, r, _) := kv_set (sc_db s) u owner n core value flags in Ok (with_db s d, r)
  | KvReserve owner n core flags => let! (d, r) := kv_reserve (sc_db s) (u_gen u) owner n core flags true in Ok (with_db s d, r)
  | KvUnreserve owner n core => let! (d, r) := kv_unreserve (sc_db s) (u_gen u) owner n core true in Ok (with_db s d, r)
  end.
Fixpoint req_steps (s : scan) (u : ucmd) (l : list request) : outcome scan :=
  match l with [] => Ok s | q :: l => let! (s, _) := req_step s u q in req_steps s u l end.
