(* The tool sidctl, src/tools/sidctl/sidctl.c: what it prints on its standard output and its exit status.  The log goes to standard
   error and is left out; writes to standard output do not fail. *)
From Verif Require Import Base UtilStr_Model UbrDb_Model UbrRec_Model UbrMsg_Model Ifc_Model Usid_Model Fmt_Model.
Local Open Scope nat_scope.

(* SID_IFC_CMD_FL_FMT_TABLE, _JSON and _ENV, src/include/iface/ifc.h:41-43: the same numbers as those of fmt_output_t
   (src/include/internal/fmt.h:21-26), sidctl.c uses one for the other *)
Definition fmt_flag (f : fmt) : N := match f with TABLE => 0 | JSON => 1 | ENV => 2 end.
(* flags_to_format, src/resource/ubr.c:1279-1290, of the daemon *)
Definition flags_to_format (flags : N) : fmt :=
  let m := N.land flags 3 in
  if (m =? 0)%N then TABLE else if (m =? 1)%N then JSON else if (m =? 2)%N then ENV else TABLE.

(* _sid_cmd, src/tools/sidctl/sidctl.c:31-56: what is printed and the return value; printing a string reads up to its NUL *)
Definition sid_cmd (env : list bytes) (cmd : nat) (f : fmt) (daemon : bytes -> got) : outcome (bytes * Z) :=
  match ifc_request env (Req cmd (fmt_flag f) 0 no_checkpoint None 0) daemon with
  | inr _ => Ok ([], (-1)%Z)
  | inl l =>
    let! data := rsl_data (Some l) in
    match data with
    | Some d => let! s := string_at d in Ok (s, 0%Z)
    | None => let! (r, status) := rsl_status (Some l) in Ok ([], if negb (r =? 0)%Z || N.odd status then (-1)%Z else 0%Z)
    end
  end.
(* The numbers of the own version: SID_IFC_PROTOCOL, SID_VERSION_MAJOR, SID_VERSION_MINOR, SID_VERSION_RELEASE *)
Record vsn := Vsn { v_protocol : N; v_major : N; v_minor : N; v_release : N }.
(* _sid_cmd_version, src/tools/sidctl/sidctl.c:58-91, up to the request *)
Definition version_head (v : vsn) : list op :=
  [DocStart 0; ElmName 0 (B "SIDCTL_VERSION") false; ElmStart 0 false; FldUint 1 (B "SIDCTL_PROTOCOL") (v_protocol v) false;
   FldUint 1 (B "SIDCTL_MAJOR") (v_major v) true; FldUint 1 (B "SIDCTL_MINOR") (v_minor v) true; FldUint 1 (B "SIDCTL_RELEASE") (v_release v) true;
   ElmEnd 0; ElmName 0 (B "SID_VERSION") true].
Definition sid_cmd_version (env : list bytes) (v : vsn) (f : fmt) (daemon : bytes -> got) : outcome (bytes * Z) :=
  let! (out, r) := sid_cmd env CMD_VERSION f daemon in
  let tail := if (r <? 0)%Z then [DocStart 0; DocEnd 0; DocEnd 0] else [DocEnd 0] in
  Ok (emits f (version_head v) ++ out ++ emits f tail, 0%Z).

(* _get_format, src/tools/sidctl/sidctl.c:143-154, of a string *)
Definition get_format (s : bytes) : option fmt :=
  if strcaseeq s (B "json") then Some JSON else if strcaseeq s (B "env") then Some ENV else if strcaseeq s (B "table") then Some TABLE else None.
(* The options as getopt_long gives them; OBad is any it does not know or that lacks its argument *)
Inductive opt := OHelp | OFormat (arg : bytes) | OVerbose | OVersion | OBad.
(* What the program is built with: its usage text (src/tools/sidctl/sidctl.c:93-134), the text about its build (136-141), its version *)
Record built := Built { b_usage : bytes; b_about : bytes; b_vsn : vsn }.
(* What is seen of a run: standard output, whether the usage is on standard error, whether the exit status is EXIT_SUCCESS *)
Record run := Run { out : bytes; usage_err : bool; success : bool }.
Definition usage_error : run := Run [] true false.
(* The loop over the options, src/tools/sidctl/sidctl.c:172-193: the format, or the end of the run *)
Fixpoint options (b : built) (f : fmt) (l : list opt) : fmt + run :=
  match l with
  | [] => inl f
  | OHelp :: _ => inr (Run (b_usage b) false true)
  | OFormat s :: l => match get_format s with Some f => options b f l | None => inr usage_error end
  | OVerbose :: l => options b f l
  | OVersion :: _ => inr (Run (b_about b) false true)
  | OBad :: _ => inr usage_error
  end.
(* main, src/tools/sidctl/sidctl.c:156-216; args: the arguments that are no options *)
Definition sidctl (b : built) (env : list bytes) (opts : list opt) (args : list bytes) (daemon : bytes -> got) : outcome run :=
  match options b TABLE opts with
  | inr r => Ok r
  | inl f =>
    match args with
    | [name] =>
      let! cmd := cmd_name_to_type (Some name) in
      if cmd =? CMD_VERSION then let! (o, r) := sid_cmd_version env (b_vsn b) f daemon in Ok (Run o false (negb (r <? 0)%Z))
      else if (cmd =? CMD_DBDUMP) || (cmd =? CMD_DBSTATS) || (cmd =? CMD_RESOURCES) || (cmd =? CMD_DEVICES)
           then let! (o, r) := sid_cmd env cmd f daemon in Ok (Run o false (negb (r <? 0)%Z))
      else Ok usage_error
    | _ => Ok usage_error
    end
  end.
