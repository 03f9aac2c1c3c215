(* The module for device-mapper, src/modules/ucmd/type/dm/dm.c: cookies, ready states, flags for udev, choice of submodules. *)
From Verif Require Import Base Tok_Model UtilStr_Model BaseUtil_Model UbrKey_Model UbrDb_Model UbrRec_Model UbrScan_Model Lvm_Model.
Local Open Scope nat_scope.

(* strtoul(s, &p, 0) of glibc with 64 bits, C standard 7.22.1.4: blanks, a sign, then 0x and hexadecimal digits, 0 and octal digits,
   or decimal digits.  Result: the value, whether errno is set, and what p points to; without digits p is the start. *)
Definition digit_of (base : N) (c : byte) : option N :=
  let n := N_of_ascii c in
  let v := (if (48 <=? n) && (n <=? 57) then n - 48 else if (97 <=? n) && (n <=? 102) then n - 87
            else if (65 <=? n) && (n <=? 70) then n - 55 else 16)%N in
  if (v <? base)%N then Some v else None.
Fixpoint digits_of (base acc : N) (s : bytes) : N * bytes :=
  match s with
  | c :: t => match digit_of base c with Some v => digits_of base (base * acc + v)%N t | None => (acc, s) end
  | [] => (acc, [])
  end.
Definition base_of (t : bytes) : N * bytes :=
  match t with
  | a :: b :: c :: r =>
    if Ascii.eqb a "0" then
      if (Ascii.eqb b "x" || Ascii.eqb b "X") && match digit_of 16 c with Some _ => true | None => false end then (16%N, c :: r) else (8%N, t)
    else (10%N, t)
  | a :: _ => if Ascii.eqb a "0" then (8%N, t) else (10%N, t)
  | [] => (10%N, t)
  end.
Definition strtoul0 (s : bytes) : N * bool * bytes :=
  let t := skipn (span isspace s) s in
  let '(neg, t) := match t with
                   | c :: t' => if Ascii.eqb c "-"%char then (true, t') else if Ascii.eqb c "+"%char then (false, t') else (false, t)
                   | [] => (false, t) end in
  let (base, t) := base_of t in
  match match t with c :: _ => digit_of base c | [] => None end with
  | None => (0%N, false, s)
  | Some _ =>
    let (v, p) := digits_of base 0 t in
    if (ULLONG_MAX <? v)%N then (ULLONG_MAX, true, p) else (if neg then wrap64 (2 ^ 64 - v) else v, false, p)
  end.

(* DM_U_*, DM_X_*, DM_SUBMODULES_ID and DM_SUBMODULE_ID_NONE, src/modules/ucmd/type/dm/dm.c:21-23 and 100-109; DM_X_COOKIE_FLAGS,
   src/modules/ucmd/type/dm/dm.h:24 *)
Definition U_COOKIE : bytes := B "DM_COOKIE". Definition U_SUSPENDED : bytes := B ".DM_SUSPENDED".
Definition U_RULES_VSN : bytes := B "DM_UDEV_RULES_VSN". Definition RULES_VSN : bytes := B "3".
Definition X_COOKIE_BASE : bytes := B "cookie_base". Definition X_COOKIE_FLAGS : bytes := B "cookie_flags".
Definition K_DM_SUB : bytes := B "dm_sub". Definition SUB_NONE : bytes := B "none".
Definition UINT32_MAX : N := 4294967295.
(* Bits of the flags, src/modules/ucmd/type/dm/dm.h:28-36 *)
Definition BIT_DISK : N := 2. Definition BIT_OTHER : N := 3. Definition BIT_SUB0 : N := 8.
(* _udev_cookie_flag_names, src/modules/ucmd/type/dm/dm.c:82-98 *)
Definition flag_names : list bytes :=
  [B "DM_UDEV_DISABLE_DM_RULES_FLAG"; B "DM_UDEV_DISABLE_SUBSYSTEM_RULES_FLAG"; B "DM_UDEV_DISABLE_DISK_RULES_FLAG";
   B "DM_UDEV_DISABLE_OTHER_RULES_FLAG"; B "DM_UDEV_LOW_PRIORITY_FLAG"; B "DM_UDEV_DISABLE_LIBRARY_FALLBACK_FLAG";
   B "DM_UDEV_PRIMARY_SOURCE_FLAG"; B "DM_UDEV_FLAG7"; B "DM_SUBSYSTEM_UDEV_FLAG0"; B "DM_SUBSYSTEM_UDEV_FLAG1";
   B "DM_SUBSYSTEM_UDEV_FLAG2"; B "DM_SUBSYSTEM_UDEV_FLAG3"; B "DM_SUBSYSTEM_UDEV_FLAG4"; B "DM_SUBSYSTEM_UDEV_FLAG5";
   B "DM_SUBSYSTEM_UDEV_FLAG6"; B "DM_SUBSYSTEM_UDEV_FLAG7"].

Definition FL_COOKIE : N := N.lor FL_AR (N.lor FL_SYNC FL_SUB_RD).
(* _get_cookie_props, src/modules/ucmd/type/dm/dm.c:252-312: database, return value and *cookie_flags (0 where it is not set, as the
   callers initialise it).  unsigned long has 64 bits. *)
Definition get_cookie_props (d : db) (u : ucmd) : outcome (db * Z * N) :=
  let! str := str_get d u MOD_DM NS_UDEV U_COOKIE None in
  match str with
  | None =>
    let! (d, r, _) := kv_set d u MOD_DM NS_DEVMOD X_COOKIE_FLAGS None FL_COOKIE in
    Ok (d, if (r <? 0)%Z then (-1)%Z else 0%Z, 0%N)
  | Some s =>
    let '(val, err, p) := strtoul0 s in
    if err || (val =? 0)%N || negb (match p with [] => true | _ => false end) || (UINT32_MAX <? val)%N then Ok (d, (-1)%Z, 0%N)
    else
      let base := (val mod 65536)%N in
      let flags := ((val / 65536) mod 65536)%N in
      let! (d, r, _) := kv_set d u MOD_DM NS_DEVMOD X_COOKIE_BASE (Some (le 2 base)) FL_ALIGN in
      if (r <? 0)%Z then Ok (d, (-1)%Z, 0%N)
      else
        let! (d, r, _) := kv_set d u MOD_DM NS_DEVMOD X_COOKIE_FLAGS (Some (le 2 flags)) (N.lor FL_ALIGN FL_COOKIE) in
        if (r <? 0)%Z then Ok (d, (-1)%Z, 0%N) else Ok (d, 1%Z, flags)
  end.

(* A value of type uint16_t read through the pointer sid_ucmd_kv_get gives *)
Definition short_get (d : db) (u : ucmd) (owner : bytes) (core : bytes) (foreign_mod : option bytes) : outcome (option N) :=
  match fst (kv_get d u owner NS_DEVMOD core 0 foreign_mod None) with
  | None => Ok None
  | Some ([], _) => UB
  | Some (x :: _, _) => if length x <? 2 then UB else Ok (Some (unle (firstn 2 x)))
  end.

(* What an event says: sid_ucmd_ev_get_dev_action and sid_ucmd_ev_get_dev_synth_uuid != NULL; udev_action_t,
   src/include/internal/common.h:30-40 *)
Inductive action := ACT_UNKNOWN | ACT_ADD | ACT_CHANGE | ACT_REMOVE | ACT_MOVE | ACT_ONLINE | ACT_OFFLINE | ACT_BIND | ACT_UNBIND.
Definition is_change (a : action) : bool := match a with ACT_CHANGE => true | _ => false end.
Definition is_add (a : action) : bool := match a with ACT_ADD => true | _ => false end.

(* The if at src/modules/ucmd/type/dm/dm.c:791-796 and again at 826-831 *)
Definition set_by_flags (s : scan) (u : ucmd) (flags : N) : outcome (scan * Z) :=
  if N.testbit flags BIT_OTHER then set_ready s u MOD_DM RDY_PRIVATE false
  else if N.testbit flags BIT_DISK then set_ready s u MOD_DM RDY_FLAT false
  else set_ready s u MOD_DM RDY_PUBLIC false.
(* The switch of _dm_scan_pre, src/modules/ucmd/type/dm/dm.c:718-833, with the part at handle_unconfigured *)
Definition dm_switch (s : scan) (u : ucmd) (ready : N) (cookie : option N) (synth : bool) (a : action) : outcome (scan * Z) :=
  match ready with
  | 0 => Ok (s, (-1)%Z)
  | 2 =>
    match cookie with
    | Some flags =>
      let! (s, r) := set_ready s u MOD_DM RDY_UNCONFIGURED false in
      if (r <? 0)%Z then Ok (s, r) else set_by_flags s u flags
    | None =>
      if synth then set_ready s u MOD_DM RDY_PUBLIC false
      else if is_add a then set_ready s u MOD_DM RDY_UNCONFIGURED false
      else Ok (s, 0%Z)
    end
  | 3 | 5 | 6 | 7 | 8 => match cookie with Some flags => set_by_flags s u flags | None => Ok (s, 0%Z) end
  | _ => Ok (s, 0%Z)
  end%N.
(* _dm_scan_pre, src/modules/ucmd/type/dm/dm.c:672-840; sub is what _exec_dm_submod does in the phase scan_pre (its result below 0
   becomes -1, 234-236) *)
Definition dm_scan_pre (s : scan) (u : ucmd) (synth : bool) (a : action) (sub : scan -> outcome (scan * Z)) : outcome (scan * Z) :=
  let! (d, has_cookie, flags) := get_cookie_props (sc_db s) u in
  let s := with_db s d in
  if (has_cookie <? 0)%Z then Ok (s, (-1)%Z)
  else
    let! val := str_get (sc_db s) u MOD_DM NS_UDEV U_SUSPENDED None in
    match val with
    | None => Ok (s, (-1)%Z)
    | Some v =>
      let! (s, ready) := get_ready s u MOD_DM 0 in
      if negb (has_cookie =? 0)%Z && (synth || negb (is_change a)) then Ok (s, (-1)%Z)
      else
        let! (s, r) := (if key_eqb v (B "1") then set_ready s u MOD_DM RDY_UNAVAILABLE false
                        else dm_switch s u ready (if (has_cookie =? 0)%Z then None else Some flags) synth a) in
        if (r <? 0)%Z then Ok (s, (-1)%Z)
        else let! (s, r) := sub s in Ok (s, if (r <? 0)%Z then (-1)%Z else 0%Z)
    end.
(* _lvm_scan_pre, src/modules/ucmd/type/dm/lvm/lvm.c:275-316 *)
Definition lvm_scan_pre (u : ucmd) (s : scan) : outcome (scan * Z) :=
  let! (s, ready) := get_ready s u MOD_LVM 0 in
  if (ready <? RDY_UNINITIALIZED)%N then Ok (s, 0%Z)
  else
    let! flags := short_get (sc_db s) u MOD_LVM X_COOKIE_FLAGS (Some MOD_DM) in
    let sub0 := match flags with Some f => N.testbit f BIT_SUB0 | None => false end in
    if ((ready =? RDY_PUBLIC) || (ready =? RDY_PRIVATE))%N then
      if sub0 then set_ready s u MOD_LVM RDY_UNINITIALIZED false else Ok (s, 0%Z)
    else if (ready =? RDY_UNINITIALIZED)%N then
      if sub0 then Ok (s, 0%Z) else set_ready s u MOD_LVM RDY_PUBLIC false
    else Ok (s, 0%Z).
(* A device that no submodule claimed: _do_exec_dm_submod (src/modules/ucmd/type/dm/dm.c:141-161) without a submodule *)
Definition no_sub (s : scan) : outcome (scan * Z) := Ok (s, 0%Z).

(* The loop at src/modules/ucmd/type/dm/dm.c:908-927, up to the first call that fails *)
Definition FL_FLAG : N := N.lor FL_FRG_RD FL_SUB_RD.
Fixpoint store_flags (d : db) (u : ucmd) (flags : N) (i : N) (names : list bytes) : outcome (db * Z) :=
  match names with
  | [] => Ok (d, 0%Z)
  | name :: names =>
    let! (d, r, _) := kv_set d u MOD_DM NS_UDEV name (if N.testbit flags i then Some (B "1" ++ [NUL]) else None) FL_FLAG in
    if (r <? 0)%Z then Ok (d, (-1)%Z) else store_flags d u flags (i + 1)%N names
  end.
Definition set_one (d : db) (u : ucmd) (bit : nat) : outcome (db * Z) :=
  let! (d, r, _) := kv_set d u MOD_DM NS_UDEV (nth bit flag_names []) (Some (B "1" ++ [NUL])) FL_FLAG in
  Ok (d, if (r <? 0)%Z then (-1)%Z else 0%Z).
(* _dm_scan_a_exit, src/modules/ucmd/type/dm/dm.c:877-960 *)
Definition dm_scan_a_exit (s : scan) (u : ucmd) : outcome (scan * Z) :=
  let! (s, ready) := get_ready s u MOD_DM 0 in
  let! (d, r) := (if (RDY_UNINITIALIZED <=? ready)%N then str_set (sc_db s) u MOD_DM NS_UDEV U_RULES_VSN RULES_VSN FL_SYNC_P else Ok (sc_db s, 0%Z)) in
  if (r <? 0)%Z then Ok (with_db s d, (-1)%Z)
  else
    let! flags := short_get d u MOD_DM X_COOKIE_FLAGS None in
    match flags with
    | None => Ok (with_db s d, 0%Z)
    | Some flags =>
      let! (d, r) := store_flags d u flags 0 flag_names in
      if (r <? 0)%Z then Ok (with_db s d, r)
      else if ((ready =? RDY_UNINITIALIZED) || (ready =? RDY_PRIVATE) || (ready =? RDY_UNAVAILABLE))%N then
        let! (d, r) := set_one d u 3 in
        if (r <? 0)%Z then Ok (with_db s d, r) else let! (d, r) := set_one d u 2 in Ok (with_db s d, r)
      else if (ready =? RDY_FLAT)%N then let! (d, r) := set_one d u 2 in Ok (with_db s d, r)
      else Ok (with_db s d, 0%Z)
    end.

(* The semaphores: semget of a key, whether semctl and semop on a semaphore succeed *)
Record sems := Sems { sem_get : N -> option nat; sem_ctl : nat -> bool; sem_op : nat -> bool }.
(* _udevcomplete, src/modules/ucmd/type/dm/dm.c:1002-1035: return value and the semaphores lowered *)
Definition udevcomplete (w : sems) (base : N) : Z * list nat :=
  match sem_get w (N.lor (N.shiftl 3405 16) base) with
  | None => ((-1)%Z, [])
  | Some id => if negb (sem_ctl w id) then ((-1)%Z, []) else if negb (sem_op w id) then ((-1)%Z, []) else (0%Z, [id])
  end.
(* _dm_scan_action_current, src/modules/ucmd/type/dm/dm.c:1037-1050; sub as above, for the phase action_current *)
Definition dm_action_current (s : scan) (u : ucmd) (w : sems) (sub : scan -> outcome (scan * Z)) : outcome (scan * Z * list nat) :=
  let! base := short_get (sc_db s) u MOD_DM X_COOKIE_BASE None in
  let (r, l) := match base with Some b => udevcomplete w b | None => (0%Z, []) end in
  if (r <? 0)%Z then Ok (s, (-1)%Z, l)
  else let! (s, r) := sub s in Ok (s, if (r <? 0)%Z then (-1)%Z else 0%Z, l).

(* A submodule: its id, scan_subsys_match_current, scan_subsys_match_next and the other functions by phase *)
Record submod := Submod { sm_id : bytes; sm_current : db -> outcome bool; sm_next : db -> outcome bool; sm_run : nat -> scan -> outcome (scan * Z) }.
(* The loop at src/modules/ucmd/type/dm/dm.c:178-193: the first that matches *)
Fixpoint match_current (d : db) (l : list submod) : outcome (option submod) :=
  match l with
  | [] => Ok None
  | m :: l => let! b := sm_current m d in if b then Ok (Some m) else match_current d l
  end.
(* The loop at src/modules/ucmd/type/dm/dm.c:203-217: no break, the last that matches *)
Fixpoint match_next (d : db) (l : list submod) (found : option submod) : outcome (option submod) :=
  match l with
  | [] => Ok found
  | m :: l => let! b := sm_next m d in match_next d l (if b then Some m else found)
  end.
(* _do_exec_dm_submod, src/modules/ucmd/type/dm/dm.c:141-161, with the result of _exec_dm_submod (234-236) *)
Definition run_submod (m : option submod) (phase : nat) (s : scan) : outcome (scan * Z) :=
  match m with
  | None => Ok (s, 0%Z)
  | Some m => let! (s, r) := sm_run m phase s in Ok (s, if (r <? 0)%Z then (-1)%Z else 0%Z)
  end.
(* _dm_submod_common_scan_init, src/modules/ucmd/type/dm/dm.c:529-569: the scan, submod_res_current and the return value.
   submod_res_current is NULL at the start (a worker handles one command); sid_mod_reg_get_mod finds by id (C92). *)
Definition submod_init (s : scan) (u : ucmd) (l : list submod) : outcome (scan * option submod * Z) :=
  let! name := str_get (sc_db s) u MOD_DM NS_DEVICE K_DM_SUB None in
  match name with
  | Some name =>
    if key_eqb name SUB_NONE then Ok (s, None, 0%Z)
    else
      match find (fun m => key_eqb (sm_id m) name) l with
      | None => Ok (s, None, 0%Z)
      | Some m => let! (s, r) := run_submod (Some m) A_INIT s in Ok (s, Some m, r)
      end
  | None =>
    let! m := match_current (sc_db s) l in
    let! (d, r) := str_set (sc_db s) u MOD_DM NS_DEVICE K_DM_SUB (match m with Some m => sm_id m | None => SUB_NONE end) (N.lor FL_SYNC_P FL_FRG_RD) in
    let s := with_db s d in
    if (r <? 0)%Z then Ok (s, m, (-1)%Z)
    else let! (s, r) := run_submod m A_INIT s in Ok (s, m, r)
  end.
(* _dm_scan_next, src/modules/ucmd/type/dm/dm.c:850-858: the scan, submod_res_next and the return value *)
Definition dm_scan_next (s : scan) (l : list submod) : outcome (scan * option submod * Z) :=
  let! m := match_next (sc_db s) l None in
  let! (s, r) := run_submod m A_SCAN_NEXT s in Ok (s, m, r).
