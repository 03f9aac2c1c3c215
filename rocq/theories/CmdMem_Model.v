(* The memory of a command from _init_command to _destroy_command, src/resource/ubr.c. *)
From Verif Require Import Base UbrCmd_Model.
Local Open Scope nat_scope.

(* Where a command keeps pointers (struct sid_ucmd_ctx, src/resource/ubr.c:255-311).  W_env is the first word of the union req_env
   (263-272): dev.uid_s and exp_path at once; W_cmd is the first word of the union at 277-292: scan.block_mod_iter and
   resources.main_res_mem at once.  W_ctx is the pointer to the structure itself, W_key is the local variable key of
   _device_add_field. *)
Inductive word := W_ctx | W_env | W_num | W_dsq | W_cmd | W_prn | W_res | W_exp | W_uns | W_key.
Definition word_eqb (a b : word) : bool :=
  match a, b with
  | W_ctx, W_ctx | W_env, W_env | W_num, W_num | W_dsq, W_dsq | W_cmd, W_cmd | W_prn, W_prn | W_res, W_res | W_exp, W_exp
  | W_uns, W_uns | W_key, W_key => true
  | _, _ => false
  end.
(* A piece of memory (or a mapping): the word it was first stored in, and a number of its own *)
Definition piece := (word * nat)%type.
Definition piece_eqb (a b : piece) : bool := word_eqb (fst a) (fst b) && (snd a =? snd b).
(* The words (None is NULL), the pieces that exist, and how many there were *)
Record mem := Mem { at_word : word -> option piece; live : list piece; made : nat }.
Definition none : mem := Mem (fun _ => None) [] 0.
Definition set_word (m : mem) (w : word) (v : option piece) : mem :=
  Mem (fun x => if word_eqb x w then v else at_word m x) (live m) (made m).
(* w = malloc(): the last value of w is lost *)
Definition take (m : mem) (w : word) : mem :=
  Mem (fun x => if word_eqb x w then Some (w, made m) else at_word m x) ((w, made m) :: live m) (S (made m)).
(* free(w) or "if (w) destroy(w)": w keeps its value; UB for a piece freed before *)
Definition drop (m : mem) (w : word) : outcome mem :=
  match at_word m w with
  | None => Ok m
  | Some p => if existsb (piece_eqb p) (live m) then Ok (Mem (at_word m) (filter (fun q => negb (piece_eqb p q)) (live m)) (made m)) else UB
  end.
Definition drop_clear (m : mem) (w : word) : outcome mem := let! m := drop m w in Ok (set_word m w None).
(* an access through w: UB for NULL and for a piece freed before *)
Definition access (m : mem) (w : word) : outcome mem :=
  match at_word m w with None => UB | Some p => if existsb (piece_eqb p) (live m) then Ok m else UB end.

(* What of the entries in _client_cmd_regs and _self_cmd_regs (src/resource/ubr.c:5710-5736) matters: UbrCmd_Model.reg,
   CMD_KV_IMPORT_UDEV, CMD_KV_EXPBUF_TO_FILE, CMD_SESSION_ID, CMD_KV_EXPORT_UDEV_TO_RESBUF, _cmd_exec_scan as exec, and an exec which
   prints with prn_buf to res_buf *)
Record lreg := LReg { l_reg : reg; l_import : bool; l_file : bool; l_session : bool; l_udev : bool; l_scan : bool; l_print : bool }.
Definition lreg_scan := LReg reg_scan true false true true true false.
Definition lreg_checkpoint := LReg reg_version true false false false false false.
Definition lreg_plain := LReg reg_version false false false false false false. (* unknown, active, reply *)
Definition lreg_print := LReg reg_version false false false false false true.  (* version, dbstats, devices *)
Definition lreg_dbdump := LReg reg_dbdump false false false false false false.
Definition lreg_resources := LReg reg_resources false false false false false true.
Definition lreg_self := LReg reg_dbdump false true false false false false.     (* s-dbdump *)

(* The steps of _init_command that may fail; those of sid_buf_add to the new buffer (6282) and of sid_res_search (6285) are I_add
   and I_common; the two of CMD_SESSION_ID (6316-6332) are one *)
Inductive istep := I_ctx | I_ini | I_prot | I_reg | I_prn | I_res | I_add | I_common | I_size | I_num | I_dsq | I_path | I_session
| I_handler | I_sched.
(* A string of the environment: taken, without a value, or failing to be set (_device_add_field, src/resource/ubr.c:4104-4148) *)
Inductive field := F_ok | F_no_value | F_not_set.

(* The label fail, src/resource/ubr.c:6343-6367; known is "cmd_reg is set" *)
Definition init_fail (lg : lreg) (known : bool) (m : mem) : outcome mem :=
  let! m := if known && l_file lg then drop m W_env else Ok m in
  let! m := drop m W_prn in
  let! m := drop m W_res in
  let! m := drop m W_num in
  let! m := drop m W_env in
  let! m := drop m W_dsq in
  drop m W_ctx.
(* _device_add_field, src/resource/ubr.c:4104-4148, as to key: not freed when the value cannot be set (4121).  The variable ends with
   the function. *)
Definition add_field (m : mem) (f : field) : outcome (mem * bool) :=
  match f with
  | F_no_value => Ok (m, true)
  | F_not_set => Ok (set_word (take m W_key) W_key None, true)
  | F_ok => let! m := drop_clear (take m W_key) W_key in Ok (m, false)
  end.
(* The loop 4177-4180 of _parse_cmd_udev_env: whether one failed *)
Fixpoint add_fields (m : mem) (l : list field) : outcome (mem * bool) :=
  match l with
  | [] => Ok (m, false)
  | f :: l => let! (m, failed) := add_field m f in if failed then Ok (m, true) else add_fields m l
  end.
(* _parse_cmd_udev_env, src/resource/ubr.c:4150-4200: whether the result is below 0.  A failed field gives 1 (see UbrMsg_Model),
   and dsq_s is left NULL then.  asprintf leaves the pointer NULL when it fails here. *)
Definition parse_env (m : mem) (bad : istep -> bool) (l : list field) : outcome (mem * bool) :=
  if bad I_size then Ok (m, true)
  else if bad I_num then Ok (m, true)
  else
    let! (m, failed) := add_fields (take m W_num) l in
    if failed then Ok (m, false) else if bad I_dsq then Ok (m, true) else Ok (take m W_dsq, false).
(* _init_command, src/resource/ubr.c:6231-6368: bad tells which steps fail, fields are those of the environment, path tells that
   bytes follow the header.  Some with the command when it is made. *)
Definition init_command (lg : lreg) (bad : istep -> bool) (fields : list field) (path : bool) : outcome (mem * option cmd) :=
  let fail known m := let! m := init_fail lg known m in Ok (m, None) in
  if bad I_ctx then Ok (none, None)
  else
    let m := take none W_ctx in
    if bad I_ini || bad I_prot || bad I_reg then fail false m
    else if bad I_prn then fail true m
    else
      let m := take m W_prn in
      if bad I_res then fail true m
      else
        let m := take m W_res in
        if bad I_add || bad I_common then fail true m
        else
          let! (m, failed) := if l_import lg then parse_env m bad fields else Ok (m, false) in
          if failed then fail true m
          else if l_file lg && path && bad I_path then fail true m
          else
            let m := if l_file lg && path then take m W_env else m in
            if l_session lg && bad I_session then fail true m
            else if bad I_handler || bad I_sched then fail true m
            else let! c := init_cmd (l_reg lg) in Ok (m, Some c).

(* _destroy_command, src/resource/ubr.c:6370-6400; uns_buf is not among what is freed *)
Definition destroy_command (lg : lreg) (m : mem) : outcome mem :=
  let! m := drop m W_res in
  let! m := drop m W_prn in
  let! m := drop m W_exp in
  let! m := if asks_main (l_reg lg) then drop m W_cmd else Ok m in
  let! m := if l_file lg then drop m W_env
            else let! m := drop m W_num in let! m := drop m W_env in drop m W_dsq in
  drop m W_ctx.

(* What the surroundings do besides UbrCmd_Model.answers: the iterator is made (5372), the device is known as far as strdup (5282), the
   rest of _common_scan_init up to the modules, _cmd_exec_scan_b_init; and whether a udev property was written since the last export *)
Record effects := Effects { e_iter : bool; e_uid : bool; e_init : bool; e_b_init : bool; e_udev : bool }.

(* _common_scan_init, src/resource/ubr.c:5366-5401, before the modules: whether it fails *)
Definition scan_init (m : mem) (e : effects) : outcome (mem * bool) :=
  if negb (e_iter e) then Ok (m, true)
  else
    let m := take m W_cmd in
    if negb (e_uid e) then let! m := drop_clear m W_cmd in Ok (m, true)
    else
      let m := take m W_env in
      if negb (e_init e) then let! m := drop_clear m W_cmd in Ok (m, true) else Ok (m, false).
(* _cmd_exec_scan, src/resource/ubr.c:5624-5708: r is the result of the rest.  In the second stage the iterator is used first (5178)
   and destroyed by _cmd_exec_scan_b_exit (5560-5574), which is called unless _cmd_exec_scan_b_init fails. *)
Definition exec_scan (m : mem) (stage : nat) (r : Z) (e : effects) : outcome (mem * Z) :=
  match stage with
  | 1 => let! (m, failed) := scan_init m e in if failed then Ok (m, (-1)%Z) else Ok (m, r)
  | 2 =>
    let! m := access m W_cmd in
    if negb (e_b_init e) then Ok (m, (-1)%Z) else let! m := drop_clear m W_cmd in Ok (m, r)
  | _ => Ok (m, (-1)%Z)
  end.
Definition with_exec (a : answers) (r : Z) : answers := Answers r (an_build a) (an_count a) (an_timer a) (an_exp a) (an_res a).
Definition cm := (cmd * mem)%type.
(* cmd_reg->exec with its memory.  _cmd_exec_resources (src/resource/ubr.c:4540-4645): when the mapping is there, it is used and
   forgotten (4642).  mmap does not fail here. *)
Definition exec_m (lg : lreg) (x : cm) (a : answers) (e : effects) : outcome (cm * Z) :=
  let (c, m) := x in
  let g := l_reg lg in
  if asks_main g then
    let! (c', r) := exec g c a in
    if c_mem c then
      let! m := access m W_prn in let! m := access m W_res in let! m := access m W_cmd in
      Ok ((c', set_word m W_cmd None), r)
    else Ok ((c', m), r)
  else if l_scan lg then
    let! (m, r) := exec_scan m (c_stage c) (an_exec a) e in
    let! (c, r) := exec g c (with_exec a r) in Ok ((c, m), r)
  else
    let! m := if l_print lg then let! m := access m W_prn in access m W_res else Ok m in
    let! (c, r) := exec g c a in Ok ((c, m), r).
(* _build_cmd_kv_buffers, src/resource/ubr.c:1292-1575: a udev property goes to res_buf (1432); both buffers are destroyed again on
   failure *)
Definition build_m (lg : lreg) (x : cm) (a : answers) (e : effects) : outcome (cm * Z) :=
  let (c, m) := x in
  let g := l_reg lg in
  let (c, r) := build_buffers g c a in
  if negb (exports g) then Ok ((c, m), r)
  else
    let! m := if l_udev lg && e_udev e then access m W_res else Ok m in
    if (r <? 0)%Z then Ok ((c, m), r) else Ok ((c, take (take m W_exp) W_uns), r).
(* _send_out_cmd_expbuf, src/resource/ubr.c:5768-5852, and _send_out_cmd_resbuf, 5854-5894: both destroy the buffer on every way *)
Definition send_exp_m (lg : lreg) (x : cm) (a : answers) : outcome (cm * Z) :=
  let (c, m) := x in
  let (c, r) := send_expbuf (l_reg lg) c a in
  let! m := drop_clear m W_exp in Ok ((c, m), r).
Definition send_res_m (x : cm) (a : answers) : outcome (cm * Z) :=
  let (c, m) := x in
  let (c, r) := send_resbuf c a in
  let! m := drop_clear m W_res in Ok ((c, m), r).
(* _process_cmd_unsbuf, src/resource/ubr.c:1577-1605 *)
Definition unsbuf_m (x : cm) : outcome cm := let (c, m) := x in let! m := drop_clear m W_uns in Ok (c, m).

(* _cmd_handler, src/resource/ubr.c:5896-6029, with the memory; the states as in UbrCmd_Model *)
Definition change_m (g : reg) (x : cm) (s : cmd_state) (timer : Z) : outcome (cm * Z) :=
  let! (c, r) := change_state g (fst x) s timer in Ok ((c, snd x), r).
Definition andthen_m (x : outcome (cm * Z)) (f : cm -> outcome (cm * Z)) : outcome (cm * Z) :=
  let! (c, r) := x in if (r <? 0)%Z then Ok (c, r) else f c.
Definition end_stage_m (g : reg) (x : cm) (a : answers) : outcome (cm * Z) :=
  if is_last_stage g (fst x) then change_m g x C_FIN 0 else change_m g x C_STG_WAIT (an_timer a).
(* 5993-6014 *)
Definition handler_tail_m (lg : lreg) (x : cm) (a : answers) (r : Z) : outcome (cm * Z) :=
  match c_state (fst x) with
  | C_RESBUF_L_SEND => andthen_m (send_res_m x a) (fun x => end_stage_m (l_reg lg) x a)
  | C_EXPBUF_L_SEND =>
    let! (x, r) := send_exp_m lg x a in
    if (r <? 0)%Z && negb (r =? - ENODATA)%Z then Ok (x, r) else end_stage_m (l_reg lg) x a
  | _ => Ok (x, r)
  end.
(* 5971-5992 *)
Definition handler_send_m (lg : lreg) (x : cm) (a : answers) (r : Z) : outcome (cm * Z) :=
  match c_state (fst x) with
  | C_EXPBUF_F_SEND =>
    let! (x, r) := send_exp_m lg x a in
    if (r <? 0)%Z && negb (r =? - ENODATA)%Z then Ok (x, r)
    else
      let! (x, r) := change_m (l_reg lg) x (if (r =? - ENODATA)%Z then C_RESBUF_L_SEND else C_EXPBUF_WAIT_ACK) 0 in
      if (r <? 0)%Z then Ok (x, r) else handler_tail_m lg x a r
  | C_RESBUF_F_SEND =>
    andthen_m (send_res_m x a) (fun x => andthen_m (change_m (l_reg lg) x C_EXPBUF_L_SEND 0) (fun x => handler_tail_m lg x a 0))
  | _ => handler_tail_m lg x a r
  end.
(* 5953-5969 *)
Definition handler_build_m (lg : lreg) (x : cm) (a : answers) (e : effects) (r : Z) : outcome (cm * Z) :=
  match c_state (fst x) with
  | C_RES_BUILD =>
    andthen_m (build_m lg x a e) (fun x =>
      andthen_m (change_m (l_reg lg) x (if to_main (l_reg lg) then C_EXPBUF_F_SEND else C_RESBUF_F_SEND) 0) (fun x => handler_send_m lg x a 0))
  | _ => handler_send_m lg x a r
  end.
(* 5903-5951 *)
Definition handler_body_m (lg : lreg) (x : cm) (a : answers) (e : effects) : outcome (cm * Z) :=
  let c := fst x in
  if state_eqb (c_state c) C_TIM_OUT then Ok (x, (-1)%Z)
  else if negb (state_eqb (c_state c) C_EXE_SCHED) then Ok (x, (-1)%Z)
  else if in_set (c_prev c) [C_INI; C_EXE_WAIT; C_STG_WAIT] then
    andthen_m (change_m (l_reg lg) x C_EXE_RUN 0) (fun x =>
      let! (x, r) := exec_m lg x a e in
      if (r <? 0)%Z then Ok (x, r)
      else if state_eqb (c_state (fst x)) C_EXE_RUN then andthen_m (change_m (l_reg lg) x C_RES_BUILD 0) (fun x => handler_build_m lg x a e 0)
      else handler_build_m lg x a e r)
  else if state_eqb (c_prev c) C_EXPBUF_WAIT_ACK then andthen_m (change_m (l_reg lg) x C_RESBUF_L_SEND 0) (fun x => handler_build_m lg x a e 0)
  else handler_build_m lg x a e (-1).
(* The label out, 6015-6028, and the call by the event loop *)
Definition handler_m (lg : lreg) (x : cm) (a : answers) (e : effects) : outcome cm :=
  let! (x, r) := handler_body_m lg (disarm (fst x), snd x) a e in
  let! x := if (r <? 0)%Z then let! (x, _) := change_m (l_reg lg) x C_ERR 0 in Ok x else Ok x in
  let! x := if in_set (c_state (fst x)) [C_STG_WAIT; C_FIN; C_ERR] then unsbuf_m x else Ok x in
  Ok (if (r <? 0)%Z then (end_loop (fst x), snd x) else x).

(* The worker with its command and the memory of it.  L_other is an action of UbrCmd_Model other than A_handler; when it is the
   answer with the resources of the main process, the memory is mapped (src/resource/ubr.c:6883-6885). *)
Inductive laction := L_handler (a : answers) (e : effects) | L_other (x : action).
Definition lsys := (sys * mem)%type.
Definition maps (s : sys) (x : action) : bool :=
  match x, s_in s with A_message, W_Resources :: _ => negb (c_ended (s_cmd s)) | _, _ => false end.
Definition lstep (lg : lreg) (s : lsys) (x : laction) : outcome lsys :=
  let (y, m) := s in
  match x with
  | L_handler a e =>
    if c_armed (s_cmd y) && negb (c_ended (s_cmd y)) then
      let! (c, m) := handler_m lg (s_cmd y, m) a e in Ok (Sys c (s_in y), m)
    else Ok s
  | L_other (A_handler _) => Ok s
  | L_other x => let! y' := sys_step (l_reg lg) y x in Ok (y', if maps y x then take m W_cmd else m)
  end.
Fixpoint lsteps (lg : lreg) (s : lsys) (l : list laction) : outcome lsys :=
  match l with [] => Ok s | x :: l => let! s := lstep lg s x in lsteps lg s l end.
