(* The name of the module for a device from the table of block drivers of the kernel, src/resource/ubr.c.  The file is given by its
   contents (opening it is taken to succeed), the size of the result buffer is a parameter. *)
From Verif Require Import Base Tok_Model UtilStr_Model BaseUtil_Model Doc_Model.
Local Open Scope nat_scope.

(* _canonicalize_module_name, src/resource/ubr.c:4201-4210, and _canonicalize_kv_key, 4212-4223 *)
Definition canonicalize_module_name (s : bytes) : bytes := map (fun c => if Ascii.eqb c "-" then "_"%char else c) s.
Definition canonicalize_kv_key (s : bytes) : bytes := map (fun c => if Ascii.eqb c ":" then "_"%char else c) s.

(* fgets(line, 80, f), src/resource/ubr.c:4338: the pieces the file is read in.  Each ends after a line end or after 79 bytes; n is the
   room left in the piece, cur its beginning (last byte first). *)
Fixpoint pieces (n : nat) (cur : bytes) (file : bytes) : list bytes :=
  match file with
  | [] => match cur with [] => [] | _ => [rev cur] end
  | c :: t => if Ascii.eqb c (ascii_of_nat 10) || (n <=? 1) then rev (c :: cur) :: pieces 79 [] t else pieces (n - 1) (c :: cur) t
  end.

(* atoi of digits: (int) strtol, which saturates *)
Definition atoi (ds : bytes) : Z :=
  let v := Z.of_N (N.min (digits_value 0 ds) 9223372036854775807) in
  (let w := v mod 4294967296 in if w <? 2147483648 then w else w - 4294967296)%Z.

(* One piece within the section of block devices, src/resource/ubr.c:4346-4372: what found points to if it is the line of the major
   number.  The NUL ends the piece; a number that ends the piece leaves found behind the NUL, at bytes of earlier lines or beyond the
   array: UB once they are used. *)
Definition line_match (major : Z) (l : bytes) : option (outcome bytes) :=
  let p := skipn (span isspace l) l in
  let n := span isdigit p in
  let ds := firstn n p in
  match ds with
  | [] => None
  | _ => if (atoi ds =? 0)%Z then None
         else if (atoi ds =? major)%Z then Some (match skipn n p with [] => UB | _ :: t => Ok t end)
         else None
  end.
(* The loop, src/resource/ubr.c:4338-4373 *)
Fixpoint find_line (major : Z) (in_block : bool) (ls : list bytes) : option (outcome bytes) :=
  match ls with
  | [] => None
  | l :: ls =>
    if negb in_block then find_line major (match l with c :: _ => Ascii.eqb c "B" | [] => false end) ls
    else match line_match major l with Some f => Some f | None => find_line major true ls end
  end.

(* MOD_NAME_BLKEXT, MOD_NAME_NVME and DEV_NAME_PREFIX_NVME, src/resource/ubr.c:97-100 *)
Definition BLKEXT : bytes := B "blkext".
Definition NVME : bytes := B "nvme".
(* udev_devtype_t; the device of the command: its type, its kernel name, and for a partition what reading the number of its disk
   (_part_get_whole_disk, src/resource/ubr.c:4225-4248) puts into the buffer (None: failure) *)
Inductive devtype := DISK | PARTITION | UNKNOWN_TYPE.
Record device := Device { dv_type : devtype; dv_name : bytes; dv_disk : option bytes }.
(* _dev_is_nvme, src/resource/ubr.c:4250-4257 *)
Definition dev_is_nvme (d : device) : bool := if list_eq_dec ascii_dec (firstn 4 (dv_name d)) NVME then true else false.
(* index(devno_buf, ':'), and atoi of what is before it, src/resource/ubr.c:4284-4289; the number comes from the kernel: digits, ':' *)
Definition disk_major (s : bytes) : option Z :=
  let n := span (fun c => negb (Ascii.eqb c ":")) s in
  if n <? length s then
    let t := firstn n s in
    let t := skipn (span isspace t) t in
    let m := atoi (firstn (span isdigit t) t) in
    if (m =? 0)%Z then None else Some m
  else None.

(* _lookup_mod_name, src/resource/ubr.c:4319-4417, and _owner_name_from_blkext, 4261-4314, which calls it again for the disk of a
   partition: fuel is the depth of calls the stack has room for.  None is NULL.  The comparison of l. 4295 takes any name but blkext for
   blkext.  The result of the inner call is in the same buffer, so that l. 4408 copies it onto itself (no effect here). *)
Fixpoint lookup_mod_name (fuel : nat) (file : bytes) (d : device) (size : nat) (major : Z) : outcome (option bytes) :=
  match fuel with
  | O => UB
  | S fuel =>
    match find_line major false (pieces 79 [] file) with
    | None => Ok None
    | Some f =>
      let! found := f in
      let name := firstn (span isprint found) found in
      let! name :=
        if list_eq_dec ascii_dec name BLKEXT then
          match dv_type d with
          | PARTITION =>
              if dev_is_nvme d then Ok (Some NVME)
              else match dv_disk d with
                   | None => Ok None
                   | Some s =>
                     match disk_major s with
                     | None => Ok None
                     | Some m =>
                       let! o := lookup_mod_name fuel file d size m in
                       Ok (match o with
                           | None => None
                           | Some n => if list_eq_dec ascii_dec n BLKEXT then Some n else None
                           end)
                     end
                   end
          | DISK => Ok (if dev_is_nvme d then Some NVME else None)
          | UNKNOWN_TYPE => Ok None
          end
        else Ok (Some name) in
      Ok (match name with
          | None => None
          | Some name => if size <=? length name then None else Some (canonicalize_module_name name)
          end)
    end
  end.
