(* What a worker sends to the main process after a scan and how the main process merges it, src/resource/ubr.c. *)
From Verif Require Import Base Kvs_Model UbrKey_Model UbrDb_Model UbrDelta_Model UbrRec_Model.
Local Open Scope nat_scope.

(* A record of a message with its value decoded (UbrRec_Model): member lists are vectors, everything else is stored merged *)
Record srec := Srec { s_vec : bool; s_key : bytes; s_rec : rec }.
Fixpoint strings_at (l : list bytes) : outcome (list bytes) :=
  match l with [] => Ok [] | x :: l => let! s := string_at x in let! l := strings_at l in Ok (s :: l) end.
(* The accesses of _sync_main_kv_store to a value it has read, src/resource/ubr.c:6575-6640; vectors never have the alignment
   flag (src/resource/ubr.c:3627 clears it for groups, the core does not use it) *)
Definition decode (w : wrec) : outcome srec :=
  let! v := vvalue_of (w_val w) in
  let! seq := vvalue_seqnum v in
  let! flags := vvalue_flags v in
  let! gen := vvalue_gennum v in
  let! owner := vvalue_owner v in
  let! data := vvalue_data v in
  match w_val w with
  | Vector _ => let! l := strings_at data in Ok (Srec true (w_key w) (Rec seq flags gen owner l))
  | Scalar _ => Ok (Srec false (w_key w) (Rec seq flags gen owner (match data with [[]] => [] | d => d end)))
  end.

(* _kv_cb_main_unset and _kv_cb_main_set, src/resource/ubr.c:6401-6475, with _kv_cb_write (1113-1128) *)
Definition main_unset (old : option rec) (owner : bytes) (seq : N) : bool :=
  match old with
  | None => true
  | Some o => ((seq =? 0) || (r_seq o <=? seq))%N && (0 <=? check_kv_wr_allowed old owner)%Z
  end.
Definition main_set (old : option rec) (new : rec) : bool :=
  match old with
  | None => true
  | Some o => ((r_seq new =? 0) || (r_seq o <=? r_seq new))%N && (0 <=? check_kv_wr_allowed old (r_owner new))%Z
  end.

(* The main store during the transaction: its contents, the keys to be unset at its end (src/resource/kvs.c:714-722, 1018-1027)
   and whether update_arg.custom still points to rel_spec (it points to unset_nfo after an unset) *)
Record sst := Sst { s_db : db; s_unset : list bytes; s_rel : bool }.
Definition with_recs (d : db) (m : bytes -> option rec) : db := Db m (indexed d).
(* sid_kvs_va_unset with _kv_cb_main_unset inside the transaction *)
Definition trans_unset (st : sst) (key : bytes) (owner : bytes) (seq : N) (archive : option bytes) : sst :=
  let k := canonicalize_key key in
  let old := recs (s_db st) k in
  if main_unset old owner seq then
    let m := match archive, old with
             | Some a, Some o => put (recs (s_db st)) (canonicalize_key a) (Some o)
             | _, _ => recs (s_db st)
             end in
    Sst (with_recs (s_db st) m) (s_unset st ++ [k]) (s_rel st)
  else st.
Definition set_rel (st : sst) (b : bool) : sst := Sst (s_db st) (s_unset st) b.
(* _compose_archive_key, src/resource/ubr.c:6477-6490 *)
Definition archive_key (key : bytes) : bytes := "~"%char :: key.

(* One turn of the loop of _sync_main_kv_store after the value is read, src/resource/ubr.c:6562-6725 *)
Definition sync_step (st : sst) (r : srec) : outcome sst :=
  let v := s_rec r in
  let empty := match r_data v with [] => true | _ => false end in
  let op := if s_vec r then get_op_from_key (s_key r) else OP_SET in
  let key := match op with OP_SET => s_key r | OP_PLUS | OP_MINUS => skipn 1 (s_key r) end in
  let unset := if s_vec r then negb (has (r_flags v) FL_RS) && empty else negb (r_flags v =? FL_RS)%N && empty in
  let archive := has (r_flags v) FL_AR in
  if unset then
    let st := set_rel st false in
    let st := trans_unset st key (r_owner v) (r_seq v) (if archive then Some (archive_key key) else None) in
    Ok (if archive then st else trans_unset st (archive_key key) (r_owner v) (r_seq v) None)
  else
    match op with
    | OP_SET =>
      let k := canonicalize_key key in
      let old := recs (s_db st) k in
      let st :=
        if main_set old v then
          let m := put (recs (s_db st)) k (Some v) in
          let m := match old with Some o => if archive then put m (canonicalize_key (archive_key key)) (Some o) else m | None => m end in
          Sst (with_recs (s_db st) m) (s_unset st) (s_rel st)
        else st in
      Ok (if archive then st else trans_unset (set_rel st false) (archive_key key) (r_owner v) (r_seq v) None)
    | OP_PLUS | OP_MINUS =>
      (* _kv_cb_delta_step takes the operation from update_arg.custom *)
      if negb (s_rel st) then UB
      else
        let k := canonicalize_key key in
        let h := Hdr (r_seq v) (r_flags v) (r_gen v) (r_owner v) in
        match delta_write (s_db st) k h op (r_data v) true with
        | DOk (d, _, s) =>
          match d_final s with
          (* refused or failed: sid_buf_get_data of a NULL buffer *)
          | None => UB
          | Some f =>
            let st := Sst d (s_unset st) (s_rel st) in
            Ok (if negb (has (r_flags v) FL_RS) && match items f with [] => true | _ => false end
                then trans_unset (set_rel st false) key (r_owner v) (r_seq v) None else st)
          end
        | DErr | DUB => UB
        end
    end.
Fixpoint sync_steps (st : sst) (l : list srec) : outcome sst :=
  match l with [] => Ok st | r :: l => let! st := sync_step st r in sync_steps st l end.
(* sid_kvs_transaction_end without rollback *)
Definition commit (st : sst) : db := with_recs (s_db st) (fold_left (fun m k => put m k None) (s_unset st) (recs (s_db st))).
(* _sync_main_kv_store, src/resource/ubr.c:6492-6737, for a message without a value that is too small *)
Definition sync_main (d : db) (l : list srec) : outcome db := let! st := sync_steps (Sst d [] true) l in Ok (commit st).
Fixpoint decode_all (l : list wrec) : outcome (list srec) :=
  match l with [] => Ok [] | w :: l => let! r := decode w in let! l := decode_all l in Ok (r :: l) end.
(* the same from the bytes of the message: database and return value; after a value that is too small everything is rolled
   back (C28) *)
Definition sync_main_kv_store (d : db) (file : bytes) : outcome (db * Z) :=
  let! m := read_message file in
  match m with
  | None => Ok (d, (-1)%Z)
  | Some l => let! l := decode_all l in let! d := sync_main d l in Ok (d, 0%Z)
  end.

(* The record with the sync flag cleared *)
Definition cleared (r : rec) : rec := Rec (r_seq r) (N.ldiff (r_flags r) FL_SYNC) (r_gen r) (r_owner r) (r_data r).
(* _build_cmd_kv_buffers for the scan command (flags at src/resource/ubr.c:5716-5717: udev records to the response, others to the
   export buffer, records of the sync index only), src/resource/ubr.c:1366-1528.  keys is what the iteration of the index gives
   (without the prefix), vec which records are stored as vectors: the member lists (src/resource/ubr.c:2241 and 3593 set VECTOR
   without MERGE).  Result: lines for udev, records for the main process, keys and index keys to be unset, database with
   the sync flags cleared.  A vector in the udev namespace (None) fails the command. *)
Record exported := Exported { e_lines : list bytes; e_recs : list srec; e_unset : list bytes; e_unindex : list bytes; e_db : db }.
(* the property and the key left for the rest of the turn (src/resource/ubr.c:1430 moves it to the name); a value without a NUL is
   read past its end.  KV_END_C (58) is the empty string, of which one byte is added (1439): a NUL. *)
Definition udev_line (k : bytes) (v : rec) : outcome (list bytes * bytes) :=
  match get_key_part k KEY_PART_CORE, r_data v with
  | Some core, (c :: x) :: _ =>
    if Ascii.eqb c NUL || (length x =? 0) then Ok ([], k)
    else let! s := string_at (c :: x) in Ok ([core ++ B "=" ++ s ++ [NUL]], core)
  | _, _ => Ok ([], k)
  end.
Definition export_one (vec : bytes -> bool) (e : exported) (k : bytes) : outcome (option exported) :=
  match recs (e_db e) k with
  | None => Ok (Some e)
  | Some v =>
    if negb (has (r_flags v) FL_SYNC) then Ok (Some e)
    else
      let d := with_recs (e_db e) (put (recs (e_db e)) k (Some (cleared v))) in
      let udev := ns_eqb (get_ns_from_key k) NS_UDEV in
      if udev && vec k then Ok None
      else
        let! (lines, key) := if udev then udev_line k (cleared v) else Ok ([], k) in
        let out := if udev then [] else [Srec (vec k) k (cleared v)] in
        let delta := match get_op_from_key key with OP_PLUS | OP_MINUS => [key] | OP_SET => [] end in
        Ok (Some (Exported (e_lines e ++ lines) (e_recs e ++ out) (e_unset e ++ delta) (e_unindex e ++ [k]) d))
  end.
Fixpoint export_all (vec : bytes -> bool) (e : exported) (keys : list bytes) : outcome (option exported) :=
  match keys with
  | [] => Ok (Some e)
  | k :: l => let! r := export_one vec e k in match r with Some e => export_all vec e l | None => Ok None end
  end.
(* _process_cmd_unsbuf, src/resource/ubr.c:1577-1605: the order of the two kinds of keys does not matter; unsetting a key
   that does not exist is no error.  Removing an index entry removes that key alone, as specified of aliases (not as
   src/internal/bptree.c does when both names are in one leaf, see DESIGN.md). *)
Definition process_unsbuf (e : exported) : db :=
  Db (fold_left (fun m k => put m k None) (e_unset e) (recs (e_db e))) (fold_left (fun m k => mark m k false) (e_unindex e) (indexed (e_db e))).
Definition export (vec : bytes -> bool) (keys : list bytes) (d : db) : outcome (option (list bytes * list srec * db)) :=
  let! r := export_all vec (Exported [] [] [] [] d) keys in
  Ok (match r with Some e => Some (e_lines e, e_recs e, process_unsbuf e) | None => None end).
