(* The LVM submodule of the module for device-mapper, src/modules/ucmd/type/dm/lvm/lvm.c. *)
From Verif Require Import Base Tok_Model UtilStr_Model UbrKey_Model UbrDb_Model UbrRec_Model.
Local Open Scope nat_scope.

Definition EREMOTEIO : Z := 121.
(* LINE_MAX is 2048 (POSIX2_LINE_MAX of glibc); LVM_VG_NAME_COMPLETE, src/modules/ucmd/type/dm/lvm/lvm.c:20 *)
Definition LINE_MAX : nat := 2048.
Definition K_VG_COMPLETE : bytes := B "LVM_VG_NAME_COMPLETE".
(* The names of the two modules (src/resource/mod-reg.c:50 and 584): registry "type" (src/resource/ubr.c:44), module "dm", registry
   "dm_sub" (src/modules/ucmd/type/dm/dm.c:22-23), module "lvm" *)
Definition MOD_DM : bytes := B "/type/dm".
Definition MOD_LVM : bytes := B "/type/dm/dm_sub/lvm".
(* DM_X_NAME and DM_X_UUID, src/modules/ucmd/type/dm/dm.h:23-24 *)
Definition K_NAME : bytes := B "name". Definition K_UUID : bytes := B "uuid".
Definition DASH : byte := "-"%char.

(* The loop of _unquote, src/modules/ucmd/type/dm/lvm/lvm.c:30-41, on the memory buf: c and o are positions *)
Fixpoint unquote_loop (fuel : nat) (buf : bytes) (c o : nat) : outcome (bytes * nat * nat) :=
  match fuel with
  | O => UB
  | S fuel =>
    let! x := at_ buf c in
    if Ascii.eqb x NUL then Ok (buf, c, o)
    else
      let! y := at_ buf (c + 1) in
      let copy c := let! v := at_ buf c in let! buf := put_bytes buf o [v] in unquote_loop fuel buf (c + 1) (o + 1) in
      if negb (Ascii.eqb y NUL) && Ascii.eqb x DASH then
        if Ascii.eqb y DASH then copy (c + 1) else Ok (buf, c, o)
      else copy c
  end.
(* _unquote, src/modules/ucmd/type/dm/lvm/lvm.c:23-47: the memory and the position returned *)
Definition unquote (buf : bytes) (start : nat) : outcome (bytes * nat) :=
  let! (buf, c, o) := unquote_loop (S (length buf)) buf start start in
  let! x := at_ buf c in
  let! buf := put_bytes buf o [NUL] in
  Ok (buf, if Ascii.eqb x NUL then c else c + 1).

(* sid_ucmd_kv_get of a string (C81): the data up to its NUL, None for NULL *)
Definition str_get (d : db) (u : ucmd) (owner : bytes) (n : kv_ns) (core : bytes) (foreign_mod : option bytes) : outcome (option bytes) :=
  match fst (kv_get d u owner n core 0 foreign_mod None) with
  | None => Ok None
  | Some ([], _) => UB
  | Some (x :: _, _) => let! v := string_at x in Ok (Some v)
  end.
(* sid_ucmd_kv_set of a string: it is stored with its NUL (src/resource/ubr.c:2548) *)
Definition str_set (d : db) (u : ucmd) (owner : bytes) (n : kv_ns) (core value : bytes) (flags : N) : outcome (db * Z) :=
  let! (d, r, _) := kv_set d u owner n core (Some (value ++ [NUL])) flags in Ok (d, r).
(* Calls in a row, up to the first that fails *)
Fixpoint str_sets (d : db) (u : ucmd) (owner : bytes) (flags : N) (l : list (kv_ns * bytes * bytes)) : outcome (db * Z) :=
  match l with
  | [] => Ok (d, 0%Z)
  | (n, core, value) :: l => let! (d, r) := str_set d u owner n core value flags in if (r <? 0)%Z then Ok (d, r) else str_sets d u owner flags l
  end.

Definition FL_SYNC_RD : N := N.lor FL_SYNC (N.lor FL_FRG_RD (N.lor FL_SUB_RD FL_SUP_RD)).
(* _store_component_names, src/modules/ucmd/type/dm/lvm/lvm.c:49-116.  Simplification: strdup does not fail. *)
Definition store_component_names (d : db) (u : ucmd) : outcome (db * Z) :=
  let! name := str_get d u MOD_LVM NS_DEVMOD K_NAME (Some MOD_DM) in
  match name with
  | None => Ok (d, (-1)%Z)
  | Some name =>
    let! (buf, lv) := unquote (name ++ [NUL]) 0 in
    let! (buf, layer) := unquote buf lv in
    let! (buf, _) := unquote buf layer in
    let! vg := string_at buf in
    let! lvn := string_at (skipn lv buf) in
    let! layern := string_at (skipn layer buf) in
    match vg, lvn with
    | [], _ | _, [] => Ok (d, (-1)%Z)
    | _, _ =>
      let! (d, r) := str_sets d u MOD_LVM FL_SYNC_RD
        [(NS_UDEV, B "DM_VG_NAME", vg); (NS_DEVMOD, B "vg_name", vg); (NS_UDEV, B "DM_LV_NAME", lvn); (NS_DEVMOD, B "lv_name", lvn)] in
      if (r <? 0)%Z then Ok (d, (-1)%Z)
      else
        match layern with
        | [] => Ok (d, 1%Z)
        | _ =>
          let! (d, r) := str_sets d u MOD_LVM FL_SYNC_RD [(NS_UDEV, B "DM_LV_LAYER", layern); (NS_DEVMOD, B "lv_layer", layern)] in
          Ok (d, if (r <? 0)%Z then (-1)%Z else 1%Z)
        end
    end
  end.
(* _lvm_scan_a_init, src/modules/ucmd/type/dm/lvm/lvm.c:264-272 *)
Definition lvm_scan_a_init (d : db) (u : ucmd) : outcome (db * Z) :=
  let! (d, r) := store_component_names d u in Ok (d, if (r <? 0)%Z then (-1)%Z else 0%Z).

(* _process_out_line, src/modules/ucmd/type/dm/lvm/lvm.c:126-157.  r is the result of a comparison (144).  Memory behind the line is
   not initialised: reading it is undefined. *)
Definition process_out_line (d : db) (u : ucmd) (store_kv : bool) (line : bytes) : outcome (db * Z) :=
  if negb store_kv then Ok (d, 0%Z)
  else if LINE_MAX - 1 <? length line then Ok (d, (- ENOBUFS)%Z)
  else
    let! (r, buf, kv) := get_kv (line ++ [NUL]) in
    if (r <? 0)%Z then Ok (d, 1%Z)
    else
      match kv with
      | None => UB
      | Some (k, v) =>
        let! key := string_at (skipn k buf) in
        let! val := string_at (skipn v buf) in
        let! (d, r) := str_set d u MOD_LVM NS_DEVMOD key val 0 in
        Ok (d, if (r <? 0)%Z then (- EREMOTEIO)%Z else 0%Z)
      end.
Fixpoint process_lines (d : db) (u : ucmd) (store_kv : bool) (l : list (bytes * bool)) : outcome (db * Z) :=
  match l with
  | [] => Ok (d, 0%Z)
  | (line, _) :: l => let! (d, r) := process_out_line d u store_kv line in if (r <? 0)%Z then Ok (d, r) else process_lines d u store_kv l
  end.
(* _runner_stdout_recv_fn, src/modules/ucmd/type/dm/lvm/lvm.c:167-170; data is the output up to its NUL *)
Definition stdout_recv (d : db) (u : ucmd) (store_kv : bool) (data : bytes) : outcome (db * Z) :=
  match iterate_tokens (Some data) (Some [ascii_of_nat 10]) None with
  | None => Ok (d, (- EINVAL)%Z)
  | Some l => process_lines d u store_kv l
  end.

(* _lvm_subsys_match_current and _lvm_subsys_match_next, src/modules/ucmd/type/dm/lvm/lvm.c:238-261 *)
Definition lvm_match_current (d : db) (u : ucmd) : outcome bool :=
  let! v := str_get d u MOD_LVM NS_DEVMOD K_UUID (Some MOD_DM) in
  Ok (match v with None => false | Some v => starts_with false v (B "LVM-") end).
Definition lvm_match_next (d : db) (u : ucmd) : outcome bool :=
  let! v := str_get d u MOD_LVM NS_UDEV (B "ID_FS_TYPE") None in
  Ok (match v with None => false | Some v => key_eqb v (B "LVM2_member") end).

(* _lvm_scan_next, src/modules/ucmd/type/dm/lvm/lvm.c:319-349: the arguments of the lvm command, what the runner gives (a code and the
   output, a parameter), and the result.  The output is handled while the command runs.  Simplification: memory for the arguments. *)
Definition pvscan_args (name : bytes) : bytes :=
  B "pvscan --cache --listvg --checkcomplete --vgonline --autoactivation event --udevoutput --journal=output /dev/" ++ name.
Definition lvm_scan_next (d : db) (u : ucmd) (name : bytes) (runner : bytes -> Z * bytes) : outcome (db * Z) :=
  let (r, out) := runner (pvscan_args name) in
  let! (d, _) := stdout_recv d u true out in
  Ok (d, if (r <? 0)%Z then (-1)%Z else 0%Z).
(* _lvm_scan_action_next, src/modules/ucmd/type/dm/lvm/lvm.c:352-390: also the arguments of the command that is run *)
Definition vgchange_args (vg : bytes) : bytes := B "vgchange -aay --autoactivation event " ++ vg.
Definition lvm_scan_action_next (d : db) (u : ucmd) (runner : bytes -> Z) : outcome (db * Z * option bytes) :=
  let! v := str_get d u MOD_LVM NS_DEVMOD K_VG_COMPLETE None in
  match v with
  | None => Ok (d, 0%Z, None)
  | Some vg =>
    let r := runner (vgchange_args vg) in
    if (r <? 0)%Z then Ok (d, r, Some (vgchange_args vg))
    else
      let! (d, r, _) := kv_set d u MOD_LVM NS_DEVMOD K_VG_COMPLETE None 0 in
      Ok (d, r, Some (vgchange_args vg))
  end.
