(* The bytes of a database record, src/resource/ubr.c, and of a message of records between processes or in the database file.
   Numbers are stored in the byte order of x86 (little-endian) and pointers are 8 bytes. *)
From Verif Require Import Base UbrDb_Model.
Local Open Scope nat_scope.
Local Notation concat := List.concat (only parsing).

(* An integer of n bytes in memory, and reading it back *)
Fixpoint le (n : nat) (x : N) : bytes :=
  match n with O => [] | S n => ascii_of_N (x mod 256) :: le n (x / 256) end.
Fixpoint unle (b : bytes) : N := match b with [] => 0%N | c :: b => (byteN c + 256 * unle b)%N end.

(* offsetof(kv_scalar_t, data) and SVALUE_DATA_ALIGNMENT, src/resource/ubr.c:320-341 *)
Definition SVALUE_HEADER_SIZE : N := 18.
Definition SVALUE_DATA_ALIGNMENT : N := 8.
(* MEM_ALIGN_UP_PAD, src/include/internal/mem.h:22, on size_t *)
Definition align_up_pad (p a : N) : N := N.land (wrap64 (2 ^ 64 - wrap64 p)) (a - 1).

(* strlen: None when no NUL is found before the end of the memory *)
Fixpoint strlen (b : bytes) : option nat :=
  match b with [] => None | c :: b => if Ascii.eqb c NUL then Some 0 else match strlen b with Some n => Some (S n) | None => None end end.

(* The vector of a record: one entry per item, src/resource/ubr.c:327-352 *)
Definition IDX_SEQNUM := 0. Definition IDX_FLAGS := 1. Definition IDX_GENNUM := 2. Definition IDX_OWNER := 3.
Definition IDX_PADDING := 4. Definition IDX_DATA := 4. Definition IDX_DATA_ALIGNED := 5.
(* _vvalue_header_prep, src/resource/ubr.c:819-839; the padding is taken from a static array of 8 zero bytes (339), more would
   be read past it *)
Definition header_prep (seq flags gen : N) (owner : bytes) : outcome (list bytes) :=
  let owner_size := N.of_nat (length owner + 1) in
  let head := [le 8 seq; le 8 flags; le 2 gen; owner ++ [NUL]] in
  if has flags FL_ALIGN then
    let pad := align_up_pad (SVALUE_HEADER_SIZE + owner_size) SVALUE_DATA_ALIGNMENT in
    if (pad <=? 8)%N then Ok (head ++ [repeat NUL (N.to_nat pad)]) else UB
  else Ok head.
(* _vvalue_data_prep, src/resource/ubr.c:841-850, for the indices 0, 1, ... in turn: items are appended after the header *)
Definition data_prep (header data : list bytes) : list bytes := header ++ data.

(* VVALUE_SEQNUM, VVALUE_FLAGS, VVALUE_GENNUM, VVALUE_OWNER, src/resource/ubr.c:353-356: reading past an item is undefined *)
Definition item (v : list bytes) (i : nat) : bytes := nth i v [].
Definition number_at (n : nat) (b : bytes) : outcome N := if n <=? length b then Ok (unle (firstn n b)) else UB.
Definition string_at (b : bytes) : outcome bytes := match strlen b with Some n => Ok (firstn n b) | None => UB end.
Definition vvalue_seqnum (v : list bytes) := number_at 8 (item v IDX_SEQNUM).
Definition vvalue_flags (v : list bytes) := number_at 8 (item v IDX_FLAGS).
Definition vvalue_gennum (v : list bytes) := number_at 2 (item v IDX_GENNUM).
Definition vvalue_owner (v : list bytes) := string_at (item v IDX_OWNER).
(* where the data items start, src/resource/ubr.c:899 and elsewhere *)
Definition vvalue_data (v : list bytes) : outcome (list bytes) :=
  let! flags := vvalue_flags v in
  Ok (skipn (if has flags FL_ALIGN then IDX_DATA_ALIGNED else IDX_DATA) v).

(* _svalue_ext_data_offset, src/resource/ubr.c:1181-1189 *)
Definition svalue_ext_data_offset (b : bytes) : outcome N :=
  let! flags := number_at 8 (skipn 8 b) in
  match strlen (skipn 18 b) with
  | None => UB
  | Some n =>
    let owner_size := N.of_nat (n + 1) in
    Ok (if has flags FL_ALIGN then (owner_size + align_up_pad (SVALUE_HEADER_SIZE + owner_size) SVALUE_DATA_ALIGNMENT)%N else owner_size)
  end.
(* _get_vvalue, src/resource/ubr.c:851-885, of a scalar: the entries point into the scalar.  A data size below zero wraps to a
   huge length. *)
Definition get_vvalue (b : bytes) : outcome (list bytes) :=
  if length b <? 18 then UB
  else
    let flags := unle (firstn 8 (skipn 8 b)) in
    match strlen (skipn 18 b) with
    | None => UB
    | Some n =>
      let owner_size := n + 1 in
      let rest := skipn (18 + owner_size) b in
      let head := [firstn 8 b; firstn 8 (skipn 8 b); firstn 2 (skipn 16 b); firstn owner_size (skipn 18 b)] in
      if has flags FL_ALIGN then
        let padding_size := N.to_nat (align_up_pad (SVALUE_HEADER_SIZE + N.of_nat owner_size) SVALUE_DATA_ALIGNMENT) in
        if length rest <? padding_size then UB
        else Ok (head ++ [firstn padding_size rest; skipn padding_size rest])
      else Ok (head ++ [rest])
    end.

(* A record as stored: a scalar (the items of the vector merged into one block, C31) or the vector itself *)
Inductive stored := Scalar (b : bytes) | Vector (v : list bytes).
(* SID_KVS_VAL_FL_VECTOR, src/include/resource/kvs.h:50 *)
Definition VAL_FL_VECTOR : N := 1.
Definition vvalue_of (s : stored) : outcome (list bytes) := match s with Scalar b => get_vvalue b | Vector v => Ok v end.

(* One record of a message: sid_kvs_val_fl_t (uint32_t), the key and the value *)
Record wrec := Wrec { w_flags : N; w_key : bytes; w_val : stored }.
(* The record written at src/resource/ubr.c:1455-1484 of _build_cmd_kv_buffers *)
Definition write_record (r : wrec) : bytes :=
  le 4 (w_flags r) ++ le 8 (N.of_nat (length (w_key r) + 1))
  ++ le 8 (match w_val r with Scalar b => N.of_nat (length b) | Vector v => N.of_nat (length v) end)
  ++ w_key r ++ [NUL]
  ++ match w_val r with
     | Scalar b => b
     | Vector v => concat (map (fun i => le 8 (N.of_nat (length i)) ++ i) v)
     end.
(* The whole export buffer: SID_BUF_MODE_SIZE_PREFIX puts the total size, modulo 2^32, in front (C18) *)
Definition write_message (l : list wrec) : bytes :=
  let body := concat (map write_record l) in
  le 4 (wrap32 (N.of_nat (4 + length body))) ++ body.

(* INTERNAL_MSG_MAX_FD_DATA_SIZE, src/resource/ubr.c:499 *)
Definition MSG_MAX : N := 67108864.
(* Reading n bytes of the mapping at p: past its end is undefined *)
Definition take (n : N) (p : bytes) : outcome (bytes * bytes) :=
  if (n <=? N.of_nat (length p))%N then Ok (firstn (N.to_nat n) p, skipn (N.to_nat n) p) else UB.
(* The loop at src/resource/ubr.c:6568-6573 *)
Fixpoint read_items (count : nat) (p : bytes) : outcome (list bytes * bytes) :=
  match count with
  | O => Ok ([], p)
  | S count =>
    let! (len, p) := take 8 p in
    let! (i, p) := take (unle len) p in
    let! (l, p) := read_items count p in
    Ok (i :: l, p)
  end.
(* One turn of the loop of _sync_main_kv_store as far as it reads the message, src/resource/ubr.c:6534-6616: None is the error
   of a value too small.  8, 8 and 2 bytes of the first three items are copied whatever their length, and the stored item then
   has that length: other lengths are taken as undefined. *)
Definition read_record (p : bytes) : outcome (option (wrec * bytes)) :=
  let! (flags, p) := take 4 p in
  let! (key_size, p) := take 8 p in
  let! (value_size, p) := take 8 p in
  let! (key, p) := take (unle key_size) p in
  let! key := string_at key in
  if has (unle flags) VAL_FL_VECTOR then
    if (unle value_size <? 4)%N then Ok None
    else
      (* a count above the number of bytes left runs past the mapping *)
      if (N.of_nat (length p) <? unle value_size)%N then UB
      else
        let! (v, p) := read_items (N.to_nat (unle value_size)) p in
        if (length (item v 0) =? 8) && (length (item v 1) =? 8) && (length (item v 2) =? 2)
        then Ok (Some (Wrec (unle flags) key (Vector v), p)) else UB
  else
    if (unle value_size <=? SVALUE_HEADER_SIZE)%N then Ok None
    else
      let! (b, p) := take (unle value_size) p in
      Ok (Some (Wrec (unle flags) key (Scalar b), p)).
(* The loop: every turn reads at least 20 bytes, so the length of the mapping bounds the turns *)
Fixpoint read_records (fuel : nat) (p : bytes) : outcome (option (list wrec)) :=
  match p, fuel with
  | [], _ => Ok (Some [])
  | _, O => UB
  | _, S fuel =>
    let! r := read_record p in
    match r with
    | None => Ok None
    | Some (w, p) => let! l := read_records fuel p in Ok (match l with Some l => Some (w :: l) | None => None end)
    end
  end.
(* _sync_main_kv_store up to the loop, src/resource/ubr.c:6509-6527: None is an error *)
Definition read_message (file : bytes) : outcome (option (list wrec)) :=
  if length file <? 4 then Ok None
  else
    let size := unle (firstn 4 file) in
    if (size <=? 4)%N then Ok (Some [])
    else if (MSG_MAX <? size)%N then Ok None
    else let! (p, _) := take size file in read_records (length p) (skipn 4 p).
