(* Device ids from aliases and the queries of the device stack, src/resource/ubr.c. *)
From Verif Require Import Base Kvs_Model Tok_Model UtilStr_Model UbrKey_Model UbrDb_Model UbrRec_Model.
Local Open Scope nat_scope.

(* errno values not in Base; ENOKEY is in BaseUtil_Model *)
Definition EMLINK : Z := 31.
Definition ENOKEY : Z := 126.
(* UTIL_UUID_STR_SIZE, src/include/internal/util.h:110: 36 characters and the NUL *)
Definition UUID_STR_SIZE : nat := 37.

(* util_str_copy_len (src/internal/util.c:246-269) of a part of a key to a place in a buffer: mem is the memory, p the place,
   size what the caller takes to be left there.  None is NULL.  glibc writes the whole string whenever size allows it. *)
Definition copy_part (part : option bytes) (mem : bytes) (p : nat) (size : N) : outcome (option bytes) :=
  match part with
  | None => Ok None
  | Some s =>
    if (INT_MAX <? N.of_nat (length s))%N then Ok None
    else if (size =? 0)%N || (size - 1 <? N.of_nat (length s))%N then Ok None
    else let! mem := put_bytes mem p (s ++ [NUL]) in Ok (Some mem)
  end.
(* _copy_ns_part_from_key and _copy_id_from_key, src/resource/ubr.c:789-817 *)
Definition copy_ns_part_from_key (key mem : bytes) (p : nat) (size : N) := copy_part (get_key_part key KEY_PART_NS_PART) mem p size.
Definition copy_id_from_key (key mem : bytes) (p : nat) (size : N) := copy_part (get_key_part key KEY_PART_ID) mem p size.

(* The loop of _dev_raw_alias_to_devid, src/resource/ubr.c:3739-3747: items are C strings, each entry of the vector includes the
   NUL; buf_size is a size_t.  A place past the buffer matters only when something is written there. *)
Fixpoint alias_loop (items : list bytes) (mem : bytes) (p : nat) (size : N) : outcome (Z * bytes) :=
  match items with
  | [] => Ok (0%Z, mem)
  | x :: items =>
    let! r := copy_ns_part_from_key x mem p size in
    match r with
    | None => Ok ((- ENOBUFS)%Z, mem)
    | Some mem => alias_loop items mem (p + (length x + 1)) (wrap64 (size + 2 ^ 64 - N.of_nat (length x + 1)))
    end
  end.
(* _dev_raw_alias_to_devid, src/resource/ubr.c:3713-3752: return value and the buffer.  The record is a member list (a vector). *)
Definition raw_alias_to_devid (d : db) (key buf : bytes) : outcome (Z * bytes) :=
  match recs d (canonicalize_key key) with
  | None => Ok ((- ENODATA)%Z, buf)
  | Some r => alias_loop (r_data r) buf 0 (N.of_nat (length buf))
  end.
(* _dev_alias_to_devid, src/resource/ubr.c:3754-3779 *)
Definition alias_to_devid (d : db) (u : ucmd) (owner cat alias buf : bytes) : outcome (Z * bytes) :=
  raw_alias_to_devid d (compose_key (KeySpec None OP_SET (Some DOM_ALIAS) NS_MODULE (Some (get_ns_part (u_dev u) owner NS_MODULE)) (Some cat) (Some alias)
                                       (Some K_MEMBERS))) buf.
(* strncpy(buf, s, n) *)
Definition strncpy (buf s : bytes) (n : nat) : outcome bytes :=
  put_bytes buf 0 (firstn n s ++ repeat NUL (n - length s)).
(* _dev_key_to_devid, src/resource/ubr.c:3781-3817 *)
Definition dev_key_to_devid (d : db) (dev_key buf : bytes) : outcome (Z * bytes) :=
  let (_, last) := decompose_key dev_key in
  if last =? 0 then let! buf := strncpy buf dev_key (length buf - 1) in Ok (0%Z, buf)
  else if negb (last =? KEY_PART_CORE) then Ok ((- ENOKEY)%Z, buf)
  else raw_alias_to_devid d (cat_prefix_and_key dev_key K_MEMBERS) buf.
(* The filter for aliases by device sequence number, src/resource/ubr.c:3857-3860 and 3923-3926 *)
Definition dseq_filter : key_spec := KeySpec None OP_SET (Some DOM_ALIAS) NS_MODULE (Some OWNER_CORE) (Some (B "dseq")) None None.
(* _dev_key_to_dsq, src/resource/ubr.c:3819-3879 *)
Definition dev_key_to_dsq (d : db) (dev_key buf : bytes) : outcome (Z * bytes) :=
  let (_, last) := decompose_key dev_key in
  if last =? 0 then let! buf := strncpy buf dev_key (length buf - 1) in Ok (0%Z, buf)
  else if negb (last =? KEY_PART_CORE) then Ok ((- ENOKEY)%Z, buf)
  else
    match recs d (canonicalize_key (cat_prefix_and_key dev_key K_IN)) with
    | None => Ok ((- ENODATA)%Z, buf)
    | Some r =>
      let! l := get_key_strv (r_data r) dseq_filter in
      match l with
      | [k] =>
        let! c := copy_id_from_key k buf 0 (N.of_nat (length buf)) in
        Ok (match c with Some buf => (0%Z, buf) | None => ((- ENOBUFS)%Z, buf) end)
      | _ => Ok ((- EMLINK)%Z, buf)
      end
    end.

(* sid_dev_search_t, src/include/resource/ucmd-mod.h:302-309 *)
Inductive search := IMM_ANC | ANC | BASE | IMM_DESC | DESC | TOP.
Definition downwards (m : search) : bool := match m with IMM_ANC | ANC | BASE => true | _ => false end.
(* The command asking: its device and ucmd_ctx->req_env.dev.dsq_s *)
Record asker := Asker { a_cmd : ucmd; a_dsq : option bytes }.
(* _get_dev_imm_deps, src/resource/ubr.c:3881-3966: code and the list (None for NULL).  junk is what the buffer on the stack holds
   before; a string in it that is not ended is read past its end. *)
Definition get_dev_imm_deps (d : db) (owner junk : bytes) (a : asker) (m : search) (dev_key : option bytes) : outcome (Z * option (list bytes)) :=
  let! (r, buf) := match dev_key with
                   | Some k => if downwards m then dev_key_to_devid d k junk else dev_key_to_dsq d k junk
                   | None => let! buf := put_bytes junk 0 [NUL] in Ok (0%Z, buf)
                   end in
  if (r <? 0)%Z then Ok (r, None)
  else
    let! id := string_at buf in
    let (spec, filter) :=
      if downwards m then
        (KeySpec None OP_SET None NS_DEVICE (Some (match id with [] => get_ns_part (u_dev (a_cmd a)) owner NS_DEVICE | _ => id end)) None None (Some K_MEMBERS),
         dseq_filter)
      else
        (KeySpec None OP_SET (Some DOM_ALIAS) NS_MODULE (Some OWNER_CORE) (Some (B "dseq")) (match id with [] => a_dsq a | _ => Some id end) (Some K_IN),
         KeySpec None OP_SET None NS_DEVICE None None None None) in
    let (v, code) := cmd_get_key_value d owner (compose_key spec) in
    if (code <? 0)%Z && negb (code =? - ENOENT)%Z then Ok (code, None)
    else
      match v with
      | None => Ok (0%Z, None)
      | Some (l, _) => let! l := get_key_strv l filter in Ok (0%Z, Some l)
      end.

(* Results of the recursion: None when the fuel is used up *)
Definition sres := option (outcome (Z * option (list bytes))).
(* _strv_add_strv, src/resource/ubr.c:2767-2796: None is NULL *)
Definition strv_add_strv (a b : list bytes) : option (list bytes) :=
  match a, b with [], _ | _, [] => None | _, _ => Some (a ++ b) end.
(* _strv_add_str, src/resource/ubr.c:2798-2832, of a string that is not NULL: an array that is empty but not NULL is read before
   its start *)
Definition strv_add_str (a : option (list bytes)) (s : bytes) : outcome (list bytes) :=
  match a with None => Ok [s] | Some [] => UB | Some a => Ok (a ++ [s]) end.
(* The loop for ancestors and descendants, src/resource/ubr.c:3999-4021; get is the recursive call *)
Fixpoint all_loop (get : bytes -> sres) (strv acc : list bytes) : sres :=
  match strv with
  | [] => Some (Ok (0%Z, Some acc))
  | k :: strv =>
    match get k with
    | None => None
    | Some UB => Some UB
    | Some (Ok (r, strv2)) =>
      if (r <? 0)%Z then Some (Ok (r, None))
      else
        match strv2 with
        | None => all_loop get strv acc
        | Some l => match strv_add_strv acc l with
                    | None => Some (Ok ((- ENOMEM)%Z, None))
                    | Some acc => all_loop get strv acc
                    end
        end
    end
  end.
(* The loop for base and top devices, src/resource/ubr.c:4036-4072 *)
Fixpoint end_loop (get : bytes -> sres) (strv : list bytes) (acc : option (list bytes)) : sres :=
  match strv with
  | [] => Some (Ok (0%Z, acc))
  | k :: strv =>
    match get k with
    | None => None
    | Some UB => Some UB
    | Some (Ok (r, strv2)) =>
      if (r <? 0)%Z then Some (Ok (r, None))
      else
        match strv2 with
        | None => match strv_add_str acc k with UB => Some UB | Ok acc => end_loop get strv (Some acc) end
        | Some l => match acc with
                    | None => end_loop get strv (Some l)
                    | Some a => match strv_add_strv a l with
                                | None => Some (Ok ((- ENOMEM)%Z, None))
                                | Some acc => end_loop get strv (Some acc)
                                end
                    end
        end
    end
  end.
(* _do_sid_ucmd_dev_stack_get, src/resource/ubr.c:3970-4090 *)
Fixpoint dev_stack_get (fuel : nat) (d : db) (owner junk : bytes) (a : asker) (m : search) (dev_key : option bytes) : sres :=
  match fuel with
  | O => None
  | S fuel =>
    match get_dev_imm_deps d owner junk a m dev_key with
    | UB => Some UB
    | Ok (r, strv) =>
      if (r <? 0)%Z then Some (Ok (r, None))
      else
        match m, strv with
        | IMM_ANC, _ | IMM_DESC, _ => Some (Ok (0%Z, strv))
        | _, None | _, Some [] => Some (Ok (0%Z, strv))
        | ANC, Some l | DESC, Some l => all_loop (fun k => dev_stack_get fuel d owner junk a m (Some k)) l l
        | BASE, Some l | TOP, Some l => end_loop (fun k => dev_stack_get fuel d owner junk a m (Some k)) l None
        end
    end
  end.
