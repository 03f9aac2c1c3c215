(* The execution of the phases of a scan: which functions of which modules are called, src/resource/ubr.c.  Modules are numbers.  What a
   function of a module does to the scan is arbitrary. *)
From Verif Require Import Base UbrDb_Model UbrDelta_Model UbrScan_Model.
Local Open Scope nat_scope.

(* The modules and the rest of the command.  e_blocks: modules of the registry of block modules in their order; e_fn: the table of
   functions of a module (struct scan_mod_fns, src/resource/ubr.c:160-176, in the order of the phases, as the tables of symbols at
   7527-7545 and 7567-7586); e_prepare: _set_dev_kvs, _get_base_mod_name and the first _update_dev_deps_from_sysfs
   (src/resource/ubr.c:5377-5386), None on failure, else the type module of the device, if there is one (5390); e_next: the look up of
   the module in the record NEXT_MOD (5452-5461); e_deps: _update_dev_deps_from_sysfs (5151-5169). *)
Record env := Env { e_blocks : list nat; e_fn : nat -> nat -> option (scan -> outcome (scan * Z));
  e_prepare : scan -> outcome (scan * option (option nat)); e_next : scan -> option nat; e_deps : scan -> outcome (scan * Z); e_ucmd : ucmd }.
(* A call: the module, ucmd_ctx->scan.phase, the result *)
Definition call := (nat * nat * Z)%type.
(* What the command keeps: the scan, scan.type_mod_res_current, scan.type_mod_res_next, whether scan.block_mod_iter is there; and the
   calls made so far *)
Record xst := Xst { x_scan : scan; x_current : option nat; x_next : option nat; x_iter : bool; x_calls : list call }.
Definition with_scan (x : xst) (s : scan) : xst := Xst s (x_current x) (x_next x) (x_iter x) (x_calls x).

(* the call of the function of a module for the phase, src/resource/ubr.c:5190-5193 and 5213-5216; 0 if there is none.  Simplification:
   the table of symbols of a module can be had (5185-5188, 5208-5211; a module in the registry has one). *)
Definition call_fn (e : env) (x : xst) (m : nat) : outcome (xst * Z) :=
  match e_fn e m (sc_phase (x_scan x)) with
  | None => Ok (x, 0%Z)
  | Some f => let! (s, r) := f (x_scan x) in
              Ok (Xst s (x_current x) (x_next x) (x_iter x) (x_calls x ++ [(m, sc_phase (x_scan x), r)]), r)
  end.
(* _exec_block_mods, src/resource/ubr.c:5171-5197; the order the iterator gives is that of UbrExec's list, or the reverse (Res_Model);
   without an iterator UB *)
Fixpoint block_loop (e : env) (x : xst) (l : list nat) : outcome (xst * Z) :=
  match l with
  | [] => Ok (x, 0%Z)
  | m :: l => let! (x, r) := call_fn e x m in if (r <? 0)%Z then Ok (x, (- 1)%Z) else block_loop e x l
  end.
Definition exec_block_mods (e : env) (x : xst) (reverse : bool) : outcome (xst * Z) :=
  if x_iter x then block_loop e x (if reverse then rev (e_blocks e) else e_blocks e) else UB.
(* _exec_type_mod, src/resource/ubr.c:5199-5219 *)
Definition exec_type_mod (e : env) (x : xst) (m : option nat) : outcome (xst * Z) :=
  match m with
  | None => Ok (x, 0%Z)
  | Some m => let! (x, r) := call_fn e x m in Ok (x, if (r <? 0)%Z then (- 1)%Z else 0%Z)
  end.
(* block modules, then the type module *)
Definition blocks_type (e : env) (x : xst) (m : xst -> option nat) : outcome (xst * Z) :=
  let! (x, _) := exec_block_mods e x false in exec_type_mod e x (m x).
(* the type module, then the block modules in reverse *)
Definition type_blocks (e : env) (x : xst) : outcome (xst * Z) :=
  let! (x, r) := exec_type_mod e x (x_current x) in
  let! (x, _) := exec_block_mods e x true in Ok (x, r).

(* _common_scan_init, src/resource/ubr.c:5366-5401.  Simplification: the iterator can be created. *)
Definition common_scan_init (e : env) (x : xst) : outcome (xst * Z) :=
  let! (s, o) := e_prepare e (x_scan x) in
  match o with
  | None => Ok (Xst s (x_current x) (x_next x) false (x_calls x), (- 1)%Z)
  | Some cur =>
    let x := Xst s (x_current x) (x_next x) true (x_calls x) in
    let! (x, _) := exec_block_mods e x false in
    let x := Xst (x_scan x) cur (x_next x) true (x_calls x) in
    exec_type_mod e x cur
  end.
Definition ready_of (e : env) (x : xst) : outcome (xst * N) :=
  let! (s, n) := get_ready (x_scan x) (e_ucmd e) OWNER_CORE 0 in Ok (with_scan x s, n).
Definition in_current_set (n : N) : bool := (n =? RDY_PRIVATE)%N || (n =? RDY_FLAT)%N || (n =? RDY_PUBLIC)%N.
(* _cmd_exec_scan_a_current, src/resource/ubr.c:5416-5437 *)
Definition a_current (e : env) (x : xst) : outcome (xst * Z) :=
  let! (x, ready) := ready_of e x in
  let! (x, o) := (if (ready =? RDY_UNPROCESSED)%N && match x_current x with None => true | Some _ => false end then
                    let! (s, r) := set_ready (x_scan x) (e_ucmd e) OWNER_CORE RDY_PUBLIC false in
                    Ok (with_scan x s, if (r <? 0)%Z then None else Some RDY_PUBLIC)
                  else Ok (x, Some ready)) in
  match o with
  | None => Ok (x, (- 1)%Z)
  | Some ready => if in_current_set ready then blocks_type e x x_current else Ok (x, 1%Z)
  end.
(* _cmd_exec_scan_a_next, src/resource/ubr.c:5439-5464 *)
Definition a_next (e : env) (x : xst) : outcome (xst * Z) :=
  let! (x, ready) := ready_of e x in
  if (ready =? RDY_PUBLIC)%N then
    let! (x, _) := exec_block_mods e x false in
    let x := Xst (x_scan x) (x_current x) (e_next e (x_scan x)) (x_iter x) (x_calls x) in
    exec_type_mod e x (x_next x)
  else Ok (x, 1%Z).
(* _cmd_exec_scan_a_post_current, src/resource/ubr.c:5466-5476, and _cmd_exec_scan_a_post_next, 5478-5488 *)
Definition a_post_current (e : env) (x : xst) : outcome (xst * Z) :=
  let! (x, ready) := ready_of e x in
  if in_current_set ready then blocks_type e x x_current else Ok (x, 1%Z).
Definition a_post_next (e : env) (x : xst) : outcome (xst * Z) :=
  let! (x, ready) := ready_of e x in
  if (ready =? RDY_PUBLIC)%N then blocks_type e x x_next else Ok (x, 1%Z).
(* _cmd_exec_scan_a_exit, src/resource/ubr.c:5490-5507 *)
Definition a_exit (e : env) (x : xst) : outcome (xst * Z) :=
  let! (x, r) := type_blocks e x in
  let! (x, ready) := ready_of e x in
  let! (x, r) := (if (ready =? RDY_UNPROCESSED)%N then
                    let! (s, q) := set_ready (x_scan x) (e_ucmd e) OWNER_CORE RDY_PUBLIC false in
                    Ok (with_scan x s, if (q <? 0)%Z then (- 1)%Z else r)
                  else Ok (x, r)) in
  let! (s, reserved) := get_reserved (x_scan x) (e_ucmd e) OWNER_CORE 0 in
  let x := with_scan x s in
  if (reserved =? RES_UNPROCESSED)%N then
    let! (s, q) := set_reserved (x_scan x) (e_ucmd e) OWNER_CORE RES_FREE false in
    Ok (with_scan x s, if (q <? 0)%Z then (- 1)%Z else r)
  else Ok (x, r).
(* _cmd_exec_scan_remove_current, src/resource/ubr.c:5514-5523 *)
Definition remove_current (e : env) (x : xst) : outcome (xst * Z) :=
  let! (x, r) := blocks_type e x x_current in
  if (r <? 0)%Z then Ok (x, (- 1)%Z) else let! (s, r) := e_deps e (x_scan x) in Ok (with_scan x s, r).
(* _cmd_exec_scan_b_exit, src/resource/ubr.c:5560-5574 *)
Definition b_exit (e : env) (x : xst) : outcome (xst * Z) :=
  let! (x, r) := type_blocks e x in Ok (Xst (x_scan x) (x_current x) (x_next x) false (x_calls x), r).
(* _cmd_exec_scan_error, src/resource/ubr.c:5576-5587 *)
Definition scan_error (e : env) (x : xst) : outcome (xst * Z) :=
  let! (x, _) := exec_block_mods e x false in
  let! (x, r) := exec_type_mod e x (x_current x) in
  let! (x, q) := exec_type_mod e x (x_next x) in
  Ok (x, if (r <? 0)%Z || (q <? 0)%Z then (- 1)%Z else 0%Z).
(* The table _cmd_scan_phase_regs, src/resource/ubr.c:5589-5621; also _cmd_exec_scan_a_init, 5403-5406, _cmd_exec_scan_a_pre, 5408-5414,
   _cmd_exec_scan_remove_init, 5509-5512, _cmd_exec_scan_remove_exit, 5525-5534, _cmd_exec_scan_b_init, 5536-5542,
   _cmd_exec_scan_b_action_current and _next, 5544-5558 *)
Definition exec_phase (e : env) (p : nat) (x : xst) : outcome (xst * Z) :=
  let s := x_scan x in
  let x := with_scan x (Scan (sc_db s) p (sc_ready s) (sc_reserved s)) in
  match p with
  | 0 => common_scan_init e x
  | 1 => blocks_type e x x_current
  | 2 => a_current e x
  | 3 => a_next e x
  | 4 => a_post_current e x
  | 5 => a_post_next e x
  | 6 => a_exit e x
  | 7 => common_scan_init e x
  | 8 => remove_current e x
  | 9 => type_blocks e x
  | 10 => blocks_type e x x_current
  | 11 => blocks_type e x x_current
  | 12 => blocks_type e x x_next
  | 13 => b_exit e x
  | _ => scan_error e x
  end.
(* The loop of _cmd_exec_scan, src/resource/ubr.c:5649-5705 *)
Fixpoint phases_loop (fuel : nat) (e : env) (exit_phase phase phase_end : nat) (x : xst) : outcome (xst * Z) :=
  match fuel with
  | O => UB
  | S fuel =>
    if phase <=? phase_end then
      let! (x, r) := exec_phase e phase x in
      if (r =? 0)%Z || (r =? 1)%Z then phases_loop fuel e exit_phase (S phase) phase_end x
      else if init_or_exit phase then Ok (x, (- 1)%Z)
      else let! (x, _) := exec_phase e PHASE_ERROR x in
           let! (x, _) := exec_phase e exit_phase x in
           phases_loop fuel e exit_phase (S exit_phase) phase_end x
    else Ok (x, 0%Z)
  end.
Definition exec_scan (e : env) (stage : nat) (remove : bool) (x : xst) : outcome (xst * Z) :=
  match stage with
  | 1 => if remove then phases_loop 16 e REMOVE_EXIT REMOVE_INIT REMOVE_EXIT x else phases_loop 16 e A_EXIT A_INIT A_EXIT x
  | 2 => phases_loop 16 e B_EXIT B_INIT B_EXIT x
  | _ => Ok (x, (- 1)%Z)
  end.
