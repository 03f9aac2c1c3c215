(* The udev client, src/tools/usid/usid.c: what it prints and its exit status. *)
From Verif Require Import Base Tok_Model BaseUtil_Model UbrRec_Model UbrMsg_Model Ifc_Model.
Local Open Scope nat_scope.

Definition LF : ascii := ascii_of_nat 10.
(* <asm-generic/errno.h> of Linux *)
Definition ECONNREFUSED : Z := 111.
(* sid_status_t and sid_status_str, src/tools/usid/usid.c:24-36 *)
Inductive sid_status := ST_ERROR | ST_ACTIVE | ST_INACTIVE | ST_INCOMPATIBLE.
Definition status_str (s : sid_status) : bytes :=
  match s with ST_ERROR => B "error" | ST_ACTIVE => B "active" | ST_INACTIVE => B "inactive" | ST_INCOMPATIBLE => B "incompatible" end.
(* KEY_SID_STATUS "=%s\n", src/tools/usid/usid.c:22, 85, 132, 151, 208 *)
Definition status_line (s : sid_status) : bytes := B "SID_STATUS=" ++ status_str s ++ [LF].
(* What sid_ifc_req gives: a result, or a negative number and a null pointer for the result *)
Definition got := (rsl + Z)%type.
(* _get_ubr_status, src/tools/usid/usid.c:53-70 *)
Definition get_ubr_status (g : got) : outcome sid_status :=
  match g with
  | inr r => Ok (if (r =? - ECONNREFUSED)%Z then ST_INACTIVE else if (r =? - EBADMSG)%Z then ST_INCOMPATIBLE else ST_ERROR)
  | inl l =>
    let! data := rsl_data (Some l) in
    match data with
    | None => Ok ST_INCOMPATIBLE
    | Some _ => let! (r, prot) := rsl_protocol (Some l) in Ok (if (r =? 0)%Z && (prot =? PROTOCOL) then ST_ACTIVE else ST_INCOMPATIBLE)
    end
  end.
(* The loop of _print_env_from_rsl, src/tools/usid/usid.c:101-102, with at most n turns: the rest of the data from kv on.  Reading past
   the data for the end of a string is UB. *)
Fixpoint print_from (n : nat) (data : bytes) : outcome bytes :=
  match data with
  | [] => Ok []
  | _ =>
    match n with
    | O => Ok []
    | S n => let! s := string_at data in let! t := print_from n (skipn (length s + 1) data) in Ok (s ++ LF :: t)
    end
  end.
(* _print_env_from_rsl, src/tools/usid/usid.c:89-105: what is printed and the return value *)
Definition print_env_from_rsl (l : rsl) : outcome (bytes * Z) :=
  let! data := rsl_data (Some l) in
  match data with
  | None =>
    let! (r, status) := rsl_status (Some l) in
    Ok ([], if (r <? 0)%Z || N.odd status then (- EBADMSG)%Z else 0%Z)
  | Some d => let! t := print_from (length d) d in Ok (t, 0%Z)
  end.
(* A request and what comes back: the message is not sent when it cannot be made (src/iface/ifc.c:255-283).  daemon: what the rest of
   sid_ifc_req gives for the message. *)
Definition ifc_request (env : list bytes) (q : ifc_req) (daemon : bytes -> got) : got :=
  match req_message env q with inl msg => daemon msg | inr r => inr r end.
(* sid_util_env_get_ull(KEY_ENV_SEQNUM, 0, UINT64_MAX, &val), src/tools/usid/usid.c:80, 114, 177 *)
Definition env_seqnum (env : list bytes) : Z * option N := env_get_ull (getenv env (B "SEQNUM")) 0 (2 ^ 64 - 1)%N.
(* SID_IFC_CMD_FL_FMT_ENV, src/include/iface/ifc.h:42 *)
Definition FL_FMT_ENV : N := 2.
Definition plain_req (cmd : nat) (seq : N) (c : checkpoint) : ifc_req := Req cmd FL_FMT_ENV seq c None 0.
Definition no_checkpoint : checkpoint := Checkpoint None None 0.
(* _usid_cmd_print_env, src/tools/usid/usid.c:107-136: standard output and return value; the log is left out *)
Definition cmd_print_env (env : list bytes) (cmd : nat) (c : checkpoint) (daemon : bytes -> got) : outcome (bytes * Z) :=
  match env_seqnum env with
  | (_, Some val) =>
    let g := ifc_request env (plain_req cmd val c) daemon in
    let! st := get_ubr_status g in
    let! (out, r) := match g with
                     | inr r => Ok ([], match st with ST_INACTIVE => 0%Z | _ => r end)
                     | inl l => print_env_from_rsl l
                     end in
    Ok (out ++ status_line st, r)
  | (r, None) => Ok (status_line ST_ERROR, r)
  end.
(* _usid_cmd_active, src/tools/usid/usid.c:72-87: it asks for the version *)
Definition cmd_active (env : list bytes) (daemon : bytes -> got) : outcome (bytes * Z) :=
  let val := match env_seqnum env with (_, Some v) => v | _ => 0%N end in
  let g := ifc_request env (plain_req CMD_VERSION val no_checkpoint) daemon in
  let! st := get_ubr_status g in
  Ok (status_line st, match g with inr r => r | inl _ => 0%Z end).
(* _usid_cmd_scan and _usid_cmd_checkpoint, src/tools/usid/usid.c:138-165; argv begins with the name of the command *)
Definition cmd_scan (env : list bytes) (daemon : bytes -> got) := cmd_print_env env CMD_SCAN no_checkpoint daemon.
Definition cmd_checkpoint (env : list bytes) (argv : list bytes) (daemon : bytes -> got) : outcome (bytes * Z) :=
  match argv with
  | _ :: name :: keys =>
    cmd_print_env env CMD_CHECKPOINT (Checkpoint (Some name) (match keys with [] => None | _ => Some keys end) (length keys)) daemon
  | _ => Ok (status_line ST_ERROR, (- EINVAL)%Z)
  end.
(* _usid_cmd_version, src/tools/usid/usid.c:167-212; own: the four lines about the client itself (179-186) *)
Definition cmd_version (env : list bytes) (own : bytes) (daemon : bytes -> got) : outcome (bytes * Z) :=
  let val := match env_seqnum env with (_, Some v) => v | _ => 0%N end in
  let g := ifc_request env (plain_req CMD_VERSION val no_checkpoint) daemon in
  let! st := get_ubr_status g in
  let! (out, r) := match g with
                   | inr r => Ok ([], match st with ST_INACTIVE => 0%Z | _ => r end)
                   | inl l =>
                     let! data := rsl_data (Some l) in
                     match data with
                     | Some d => let! s := string_at d in Ok (s, 0%Z)
                     | None => let! (r, status) := rsl_status (Some l) in Ok ([], if (r =? 0)%Z && negb (N.odd status) then (- ENODATA)%Z else (- EBADE)%Z)
                     end
                   end in
  Ok (own ++ out ++ status_line st, r).
(* main, src/tools/usid/usid.c:286-349, after the options: standard output and whether the exit status is EXIT_SUCCESS *)
Definition usid (env : list bytes) (own : bytes) (argv : list bytes) (daemon : bytes -> got) : outcome (bytes * bool) :=
  match argv with
  | [] => Ok ([], false)
  | name :: _ =>
    let! cmd := cmd_name_to_type (Some name) in
    let! (out, r) := if cmd =? CMD_ACTIVE then cmd_active env daemon
                     else if cmd =? CMD_CHECKPOINT then cmd_checkpoint env argv daemon
                     else if cmd =? CMD_SCAN then cmd_scan env daemon
                     else if cmd =? CMD_VERSION then cmd_version env own daemon
                     else Ok ([], (-1)%Z) in
    Ok (out, negb (r <? 0)%Z)
  end.
