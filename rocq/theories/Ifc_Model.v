(* The client library, src/iface/ifc.c: command names, the message a request sends, and the accessors of a result. *)
From Verif Require Import Base Kvs_Model Tok_Model UtilStr_Model BaseUtil_Model UbrDb_Model UbrRec_Model UbrMsg_Model.
Local Open Scope nat_scope.

(* _cmd_names, src/iface/ifc.c:25-37 *)
Definition cmd_names : list bytes :=
  map B ["undefined"; "unknown"; "active"; "checkpoint"; "reply"; "scan"; "version"; "dbdump"; "dbstats"; "resources"; "devices"]%string.
(* sid_ifc_cmd_type_to_name, src/iface/ifc.c:134-137: the table is read without a check *)
Definition cmd_type_to_name (cmd : nat) : outcome bytes := match nth_error cmd_names cmd with Some n => Ok n | None => UB end.
(* the loop of sid_ifc_cmd_name_to_type, src/iface/ifc.c:146-149, from number cmd on; n more numbers *)
Fixpoint name_loop (n cmd : nat) (name : bytes) : outcome nat :=
  match n with
  | O => Ok CMD_UNKNOWN
  | S n =>
    let! x := cmd_type_to_name cmd in
    if key_eqb name x then Ok cmd else name_loop n (S cmd) name
  end.
(* sid_ifc_cmd_name_to_type, src/iface/ifc.c:139-152; None is NULL *)
Definition cmd_name_to_type (name : option bytes) : outcome nat :=
  match name with None => Ok CMD_UNDEFINED | Some s => name_loop (CMD_END + 1 - CMD_UNDEFINED) CMD_UNDEFINED s end.

(* getenv(3): the first string of the environment that begins with the name and '=' *)
Fixpoint getenv (env : list bytes) (k : bytes) : option bytes :=
  match env with
  | [] => None
  | s :: env => if key_eqb (firstn (length k + 1) s) (k ++ B "=") then Some (skipn (length k + 1) s) else getenv env k
  end.
(* SYSTEM_MAX_MAJOR and SYSTEM_MAX_MINOR, src/iface/ifc.c:22-23 *)
Definition MAX_MAJOR : N := 2 ^ 20 - 1. Definition MAX_MINOR : N := 2 ^ 12 - 1.
(* makedev of glibc (sys/sysmacros.h): the four fields do not overlap, so that their | is their sum *)
Definition gnu_makedev (major minor : N) : N :=
  ((major mod 2 ^ 12) * 2 ^ 8 + (major / 2 ^ 12) * 2 ^ 44 + minor mod 2 ^ 8 + (minor / 2 ^ 8) * 2 ^ 20)%N.
(* _add_devt_env_to_buffer, src/iface/ifc.c:154-174: what is added, or the error.  Here and below sid_buf_add does not fail:
   the buffer has no limit, and want of memory is left out. *)
Definition add_devt (env : list bytes) : bytes + Z :=
  match env_get_ull (getenv env (B "MAJOR")) 0 MAX_MAJOR with
  | (r, Some major) =>
    if (r <? 0)%Z then inr r
    else match env_get_ull (getenv env (B "MINOR")) 0 MAX_MINOR with
         | (r, Some minor) => if (r <? 0)%Z then inr r else inl (le 8 (gnu_makedev (major mod 2 ^ 32) (minor mod 2 ^ 32)))
         | (r, None) => inr r
         end
  | (r, None) => inr r
  end.
(* struct sid_ifc_checkpoint_data, src/include/iface/ifc.h:46-50: None is NULL; there are as many keys as nr_keys says *)
Record checkpoint := Checkpoint { c_name : option bytes; c_keys : option (list bytes); c_nr : nat }.
(* the loop of _add_checkpoint_env_to_buf, src/iface/ifc.c:192-199; sid_buf_add_fmt adds the NUL too *)
Fixpoint add_keys (env : list bytes) (keys : list bytes) : bytes :=
  match keys with
  | [] => []
  | k :: keys => match getenv env k with Some v => k ++ B "=" ++ v ++ [NUL] ++ add_keys env keys | None => add_keys env keys end
  end.
(* _add_checkpoint_env_to_buf, src/iface/ifc.c:176-204; None is NULL *)
Definition add_checkpoint (env : list bytes) (data : option checkpoint) : bytes + Z :=
  match data with
  | Some (Checkpoint (Some name) keys nr) =>
    match keys, nr with
    | None, S _ => inr (- EINVAL)%Z
    | _, _ =>
      match add_devt env with
      | inr r => inr r
      | inl dev => inl (dev ++ name ++ [NUL] ++ add_keys env (firstn nr (match keys with Some l => l | None => [] end)))
      end
    end
  | _ => inr (- EINVAL)%Z
  end.
(* _add_scan_env_to_buf, src/iface/ifc.c:206-220 *)
Definition add_scan (env : list bytes) : bytes + Z :=
  match add_devt env with
  | inr r => inr r
  | inl dev => inl (dev ++ List.concat (map (fun s => s ++ [NUL]) env))
  end.
(* struct sid_ifc_req, src/include/iface/ifc.h:57-66; both members of the union are kept.  None of unmodified data is NULL. *)
Record ifc_req := Req { q_cmd : nat; q_flags : N; q_seqnum : N; q_check : checkpoint; q_mem : option bytes; q_size : nat }.
Definition FL_UNMODIFIED : N := 4.
(* The header put together in sid_ifc_req, src/iface/ifc.c:248-254: the members have 8, 1, 1 and 2 bytes *)
Definition req_header (q : ifc_req) : bytes :=
  le 8 (q_seqnum q) ++ le 1 (N.of_nat PROTOCOL) ++ le 1 (N.of_nat (q_cmd q)) ++ le 2 (q_flags q).
(* sid_ifc_req, src/iface/ifc.c:248-280: the message sent (without its size), or the error *)
Definition req_message (env : list bytes) (q : ifc_req) : bytes + Z :=
  if negb (N.land (q_flags q) FL_UNMODIFIED =? 0)%N then
    match q_mem q, q_size q with
    | None, S _ => inr (- EINVAL)%Z
    | None, O => inl (req_header q)
    | Some m, n => inl (req_header q ++ firstn n m)
    end
  else
    let body :=
      if q_cmd q =? CMD_SCAN then add_scan env
      else if q_cmd q =? CMD_CHECKPOINT then add_checkpoint env (Some (q_check q))
      else inl [] in
    match body with inl b => inl (req_header q ++ b) | inr r => inr r end.

(* struct sid_ifc_rsl, src/iface/ifc.c:39-43: the message in buf without its size, and the mapped bytes *)
Record rsl := Rsl { l_msg : bytes; l_shm : option bytes }.
(* sid_ifc_rsl_get_status, src/iface/ifc.c:64-81, and the part of it the other accessors share: the header is copied whatever
   the size.  None is a null pointer. *)
Definition rsl_status (x : option rsl) : outcome (Z * N) :=
  match x with
  | None => Ok ((- EINVAL)%Z, 0%N)
  | Some l => if length (l_msg l) <? HEADER_SIZE then UB else Ok (0%Z, unle (firstn 8 (l_msg l)))
  end.
(* sid_ifc_rsl_get_protocol, src/iface/ifc.c:83-100 *)
Definition rsl_protocol (x : option rsl) : outcome (Z * nat) :=
  match x with
  | None => Ok ((- EINVAL)%Z, 0)
  | Some l => let! h := read_header (l_msg l) in Ok (0%Z, h_prot h)
  end.
(* sid_ifc_rsl_get_data, src/iface/ifc.c:102-132: the bytes at the pointer, as many as the size says *)
Definition rsl_data (x : option rsl) : outcome (option bytes) :=
  match x with
  | None => Ok None
  | Some l =>
    let! (_, status) := rsl_status x in
    if N.odd status then Ok None
    else match l_shm l with
         | Some m => Ok (Some (skipn 4 m))
         | None => if HEADER_SIZE <? length (l_msg l) then Ok (Some (skipn HEADER_SIZE (l_msg l))) else Ok None
         end
  end.
(* What sid_ifc_req makes of a whole reply, src/iface/ifc.c:316-366: msg is the message, file the bytes of the exported file.
   The message came complete; the calls that read and map the file do not fail.  Mapping is UB when the file is shorter than its
   first 4 bytes say and it is read there. *)
Definition req_result (cmd : nat) (msg : bytes) (file : bytes) : outcome (rsl + Z) :=
  if length msg <? HEADER_SIZE then Ok (inr (- EBADMSG)%Z)
  else if cmd =? CMD_DBDUMP then
    if length file <? 4 then Ok (inr (- ENODATA)%Z)
    else
      let size := unle (firstn 4 file) in
      if (size <? 4)%N then Ok (inr (- EBADMSG)%Z)
      else if (size =? 4)%N then Ok (inl (Rsl msg None))
      else if (N.of_nat (length file) <? size)%N then UB else Ok (inl (Rsl msg (Some (firstn (N.to_nat size) file))))
  else Ok (inl (Rsl msg None)).
