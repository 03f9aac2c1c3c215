(* The log: src/log/log.c and its targets src/log/log-target-standard.c, log-target-syslog.c and log-target-journal.c; the prefixes of resources,
   src/resource/res.c.  Simplifications: what the format and its arguments give is the text of a request; prefixes are not NULL. *)
From Verif Require Import Base Tok_Model UtilStr_Model UbrRec_Model.
Local Open Scope nat_scope.

(* sid_log_tgt_t, src/include/log/log.h:21-26 *)
Inductive target := TNone | TStandard | TSyslog | TJournal.
(* The levels of syslog.h, and SID_LOG_PRINT, src/include/log/log.h:68: LOG_LOCAL0 *)
Definition LOG_ERR : Z := 3. Definition LOG_WARNING : Z := 4. Definition LOG_NOTICE : Z := 5. Definition LOG_INFO : Z := 6. Definition LOG_DEBUG : Z := 7.
Definition LOG_PRINT : Z := 128.
(* struct sid_log_req with its context, src/include/log/log.h:35-46, and the text *)
Record req := Req { q_pfx : list bytes; q_level : Z; q_errno : Z; q_file : bytes; q_line : Z; q_func : option bytes; q_text : bytes }.
(* The static variables of a target, e.g. src/log/log-target-standard.c:12-15 *)
Record tgt := Tgt { t_max : Z; t_err : bool; t_pids : bool; t_src : bool }.
(* struct sid_log, src/log/log.c:9-14, with log_ignored (73) and the static variables of the targets *)
Record log := Log { g_required : bool; g_target : target; g_verbose : Z; g_prefix : option bytes; g_ignored : bool; g_std : tgt; g_sys : tgt; g_jrn : tgt }.
(* src/log/log.c:14 and the initial values of the static variables *)
Definition log0 : log := Log false TNone 0 None false (Tgt (-1) false false false) (Tgt (-1) false false false) (Tgt (-1) false false true).

(* What comes out: on stdout or stderr, to syslog, to the journal (message, PREFIX, PRIORITY, CODE_*; None where the field is not given) *)
Inductive out :=
| OFile (err : bool) (text : bytes)
| OSyslog (level : Z) (text : bytes)
| OJournal (message : bytes) (prefix : option bytes) (level : Z) (code : option (bytes * Z * option bytes)).

(* _log_standard_open, src/log/log-target-standard.c:17-41, and _log_journal_open, src/log/log-target-journal.c:19-43 *)
Definition open_std (t : tgt) (v : Z) : tgt :=
  if (v =? 0)%Z then Tgt LOG_NOTICE (t_err t) (t_pids t) (t_src t)
  else if (v =? 1)%Z then Tgt LOG_INFO (t_err t) (t_pids t) (t_src t)
  else if (v =? 2)%Z then Tgt LOG_DEBUG (t_err t) (t_pids t) (t_src t)
  else if (v =? 3)%Z then Tgt LOG_DEBUG true (t_pids t) true
  else Tgt LOG_DEBUG true true true.
(* _log_syslog_open, src/log/log-target-syslog.c:16-31 *)
Definition open_sys (t : tgt) (v : Z) : tgt :=
  Tgt (if (v =? 0)%Z then LOG_NOTICE else if (v =? 1)%Z then LOG_INFO else LOG_DEBUG) (t_err t) (t_pids t) (t_src t).
Definition open_target (g : log) (t : target) (v : Z) : log :=
  match t with
  | TNone => g
  | TStandard => Log (g_required g) (g_target g) (g_verbose g) (g_prefix g) (g_ignored g) (open_std (g_std g) v) (g_sys g) (g_jrn g)
  | TSyslog => Log (g_required g) (g_target g) (g_verbose g) (g_prefix g) (g_ignored g) (g_std g) (open_sys (g_sys g) v) (g_jrn g)
  | TJournal => Log (g_required g) (g_target g) (g_verbose g) (g_prefix g) (g_ignored g) (g_std g) (g_sys g) (open_std (g_jrn g) v)
  end.

(* sid_log_init, src/log/log.c:20-31 *)
Definition log_init (g : log) (t : target) (v : Z) : log :=
  match g_target g with
  | TNone => open_target (Log false t v (g_prefix g) (g_ignored g) (g_std g) (g_sys g) (g_jrn g)) t v
  | _ => g
  end.
(* sid_log_init_with_handle, src/log/log.c:33-39 *)
Definition log_init_with_handle (g : log) (t : target) (v : Z) : log :=
  let g := log_init g t v in Log true (g_target g) (g_verbose g) (g_prefix g) (g_ignored g) (g_std g) (g_sys g) (g_jrn g).
(* sid_log_close, src/log/log.c:41-48: the targets only flush or disconnect *)
Definition log_close (g : log) : log := g.
Definition same_target (a b : target) : bool :=
  match a, b with TNone, TNone | TStandard, TStandard | TSyslog, TSyslog | TJournal, TJournal => true | _, _ => false end.
(* sid_log_change_tgt, src/log/log.c:50-61, with the handle *)
Definition log_change_tgt (g : log) (t : target) : log :=
  if same_target (g_target g) t then g
  else let g := open_target g t (g_verbose g) in Log (g_required g) t (g_verbose g) (g_prefix g) (g_ignored g) (g_std g) (g_sys g) (g_jrn g).
(* sid_log_set_pfx, src/log/log.c:63-69, with the handle *)
Definition log_set_pfx (g : log) (p : option bytes) : log :=
  Log (g_required g) (g_target g) (g_verbose g) p (g_ignored g) (g_std g) (g_sys g) (g_jrn g).

(* "<%s> " *)
Definition pfx_text (p : bytes) : bytes := B "<" ++ p ++ B "> ".
(* _log_standard_output, src/log/log-target-standard.c:49-79; ids: getppid and getpid, strerror: what it gives for the error number *)
Definition std_output (t : tgt) (ids : Z * Z) (strerror : Z -> bytes) (q : req) : list out :=
  if (t_max t <? q_level q)%Z && negb (q_level q =? LOG_PRINT)%Z then []
  else
    [OFile (if t_err t then true else (q_level q <=? LOG_WARNING)%Z)
       ((if t_pids t then B "[" ++ print_d (fst ids) ++ B ":" ++ print_d (snd ids) ++ B "]:" else [])
        ++ (if t_src t then q_file q ++ B ":" ++ print_d (q_line q) ++ (match q_func q with Some f => B ":" ++ f | None => [] end) ++ ["009"%char] else [])
        ++ flat_map pfx_text (q_pfx q)
        ++ q_text q
        ++ (if (q_errno q =? 0)%Z then [] else B ": " ++ strerror (q_errno q) ++ B ".")
        ++ ["010"%char])].
(* snprintf(msg + o, n, ...) of a text: the buffer; n is not 0 *)
Definition print_at (buf : bytes) (o n : nat) (s : bytes) : outcome bytes := put_bytes buf o (firstn (n - 1) s ++ [NUL]).
(* What snprintf returns *)
Definition printed_len (s : bytes) : Z := if (2147483647 <? Z.of_nat (length s))%Z then (-1)%Z else Z.of_nat (length s).
(* r >= remaining in size_t *)
Definition too_long (r : Z) (remaining : nat) : bool := (r <? 0)%Z || (Z.of_nat remaining <=? r)%Z.
(* The loop over the prefixes in _log_syslog_output, src/log/log-target-syslog.c:48-59: always at the start of the buffer.  None: too long *)
Fixpoint sys_prefixes (buf : bytes) (printed remaining : nat) (l : list bytes) : outcome (option (bytes * nat * nat)) :=
  match l with
  | [] => Ok (Some (buf, printed, remaining))
  | p :: l =>
    let! buf := print_at buf 0 (length buf) (pfx_text p) in
    let r := printed_len (pfx_text p) in
    if too_long r remaining then Ok None else sys_prefixes buf (printed + Z.to_nat r) (remaining - Z.to_nat r) l
  end.
Definition SYS_LONG : bytes := B "Internal error: _log_syslog_output: (log prefix too long)".
Definition SYS_TRUNC : bytes := B "Internal error: _log_syslog_output: (log message truncated)".
(* _log_syslog_output, src/log/log-target-syslog.c:38-68; msg: what the buffer on the stack holds *)
Definition sys_output (t : tgt) (msg : bytes) (q : req) : outcome (list out) :=
  if (t_max t <? q_level q)%Z then Ok []
  else
    let! x := sys_prefixes msg 0 (length msg) (q_pfx q) in
    match x with
    | None => Ok [OSyslog (q_level q) SYS_LONG; OSyslog (q_level q) (q_text q)]
    | Some (buf, printed, remaining) =>
      let! buf := print_at buf printed remaining (q_text q) in
      let r := printed_len (q_text q) in
      let note := if too_long r remaining then [OSyslog (q_level q) SYS_TRUNC] else [] in
      if (0 <? r)%Z then let! s := string_at buf in Ok (note ++ [OSyslog (q_level q) s]) else Ok note
    end.
(* The loop over the prefixes in _log_journal_output, src/log/log-target-journal.c:61-79 *)
Fixpoint jrn_prefixes (buf : bytes) (printed remaining : nat) (l : list bytes) : outcome (option (bytes * nat * nat)) :=
  match l with
  | [] => Ok (Some (buf, printed, remaining))
  | p :: l =>
    let! buf := print_at buf printed remaining (pfx_text p) in
    let r := printed_len (pfx_text p) in
    if too_long r remaining then Ok None else jrn_prefixes buf (printed + Z.to_nat r) (remaining - Z.to_nat r) l
  end.
(* _log_journal_output, src/log/log-target-journal.c:51-120 *)
Definition jrn_output (t : tgt) (msg : bytes) (q : req) : outcome (list out) :=
  if (t_max t <? q_level q)%Z then Ok []
  else
    let code := Some (q_file q, q_line q, q_func q) in
    let! x := jrn_prefixes msg 0 (length msg) (q_pfx q) in
    match x with
    | None => Ok [OJournal (B "(log prefix too long)") None (q_level q) code]
    | Some (buf, printed, remaining) =>
      let! buf := print_at buf printed remaining (q_text q) in
      let r := printed_len (q_text q) in
      let note := if too_long r remaining then [OJournal (B "(log message truncated)") None (q_level q) code] else [] in
      if (0 <? r)%Z then
        let! s := string_at buf in
        Ok (note ++ [OJournal s (Some (match q_pfx q with p :: _ => p | [] => [] end)) (q_level q) (if t_src t then code else None)])
      else Ok note
    end.

(* The surroundings of a call: the process ids, the texts of error numbers, what is on the stack *)
Record env := Env { n_ids : Z * Z; n_err : Z -> bytes; n_msg : bytes }.
Definition target_output (g : log) (n : env) (q : req) : outcome (list out) :=
  match g_target g with
  | TNone => Ok []
  | TStandard => Ok (std_output (g_std g) (n_ids n) (n_err n) q)
  | TSyslog => sys_output (g_sys g) (n_msg n) q
  | TJournal => jrn_output (g_jrn g) (n_msg n) q
  end.
(* The end of sid_log_voutput, src/log/log.c:102-111, with the prefix of the handle (78-84) *)
Definition handle_output (g : log) (n : env) (q : req) : outcome (list out) :=
  let q := Req (match g_prefix g with Some p => p :: q_pfx q | None => q_pfx q end) (q_level q) (Z.abs (q_errno q)) (q_file q) (q_line q) (q_func q) (q_text q) in
  target_output g n q.
Definition NO_HANDLE : bytes := B "Internal error: Incorrect or missing log handle, skipping log messages.".
(* sid_log_voutput, src/log/log.c:71-112; handle: the call has the handle, otherwise it has none *)
Definition voutput (g : log) (n : env) (handle : bool) (q : req) : outcome (log * list out) :=
  if handle then let! o := handle_output g n q in Ok (g, o)
  else if g_required g then
    if g_ignored g then Ok (g, [])
    else
      let! o := handle_output g n (Req [] LOG_ERR 0 (q_file q) (q_line q) (q_func q) NO_HANDLE) in
      Ok (Log (g_required g) (g_target g) (g_verbose g) (g_prefix g) true (g_std g) (g_sys g) (g_jrn g), o)
  else
    let! o := target_output g n (Req (q_pfx q) (q_level q) (Z.abs (q_errno q)) (q_file q) (q_line q) (q_func q) (q_text q)) in Ok (g, o).

(* The prefixes of sid_res_log_output, src/resource/res.c:1390-1417, and of _res_log_output, 1368-1388: type_pfx: log_prefix of the type *)
Definition res_prefixes (id : bytes) (type_pfx : option bytes) (own : list bytes) : list bytes :=
  B "res-imp" :: match type_pfx with Some p => [p] | None => [] end ++ id :: own.
Definition res_int_prefixes (id : bytes) : list bytes := [B "res-int"; id].

(* The calls of the interface *)
Inductive lcall :=
| LInit (t : target) (v : Z) | LInitHandle (t : target) (v : Z) | LClose | LChange (t : target) | LPrefix (p : option bytes) | LOutput (n : env) (handle : bool) (q : req).
Definition lstep (g : log) (c : lcall) : outcome (log * list out) :=
  match c with
  | LInit t v => Ok (log_init g t v, [])
  | LInitHandle t v => Ok (log_init_with_handle g t v, [])
  | LClose => Ok (log_close g, [])
  | LChange t => Ok (log_change_tgt g t, [])
  | LPrefix p => Ok (log_set_pfx g p, [])
  | LOutput n h q => voutput g n h q
  end.
Fixpoint lsteps (g : log) (l : list lcall) : outcome (log * list out) :=
  match l with
  | [] => Ok (g, [])
  | c :: l => let! (g, o) := lstep g c in let! (g, o') := lsteps g l in Ok (g, o ++ o')
  end.
