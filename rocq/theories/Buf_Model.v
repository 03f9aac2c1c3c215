(* Model of src/base/buf.c, src/base/buf-type-linear.c and src/base/buf-type-vector.c.
   Not modelled: the fd and file name of the MEMFD/FILE backends (their memory is a shared mapping of the file, so
   its contents are those of [mem]; munmap/close errors are ignored), destroy, and get_fd. *)
From Verif Require Import Base.
Local Open Scope N_scope.

(* sid_buf_mode_t, src/include/base/buf-common.h:32-35. *)
Inductive bufmode := PLAIN | PREFIX.
(* struct sid_buf_init, src/include/base/buf-common.h:51-55. *)
Record bufinit := { isize : N; istep : N; ilimit : N }.

(* SID_BUF_SIZE_PREFIX_LEN, src/include/base/buf-common.h:18-19. *)
Definition PREFIX_LEN : N := 4.

(* A memory cell: [None] is a byte that has never been written. *)
Notation cell := (option ascii).

(* struct sid_buf (src/include/base/buf-type.h:15-24) for a linear buffer: usage.allocated is the length of [bmem];
   [bmark] is mark.pos when mark.set. *)
Record lbuf := { bmode : bufmode; binit : bufinit; bmem : list cell; bused : N; bmark : option N }.

Definition allocated (b : lbuf) : N := N.of_nat (length (bmem b)).

Definition with_mem (b : lbuf) m : lbuf :=
  {| bmode := bmode b; binit := binit b; bmem := m; bused := bused b; bmark := bmark b |}.
Definition with_used (b : lbuf) u : lbuf :=
  {| bmode := bmode b; binit := binit b; bmem := bmem b; bused := u; bmark := bmark b |}.
Definition with_mark (b : lbuf) k : lbuf :=
  {| bmode := bmode b; binit := binit b; bmem := bmem b; bused := bused b; bmark := k |}.
Definition with_init (b : lbuf) i : lbuf :=
  {| bmode := bmode b; binit := i; bmem := bmem b; bused := bused b; bmark := bmark b |}.

(* 64-bit subtraction. *)
Definition sub64 (a b : N) : N := wrap64 (a + (2 ^ 64 - b)).

(* _check_buf, src/base/buf.c:17-27: the remainder by a zero allocation step is undefined. *)
Definition check_buf (i : bufinit) : outcome bool :=
  if ilimit i =? 0 then Ok true
  else if negb (isize i <=? ilimit i) then Ok false
  else if negb (istep i <=? ilimit i) then Ok false
  else if istep i =? 0 then UB
  else Ok (ilimit i mod istep i =? 0).

(* The size computation shared by _buffer_linear_realloc (src/base/buf-type-linear.c:30-49) and
   _buffer_vector_realloc (src/base/buf-type-vector.c:30-50): [inl n] is the new allocation, [inr r] an early
   return of r. *)
Definition realloc_size (i : bufinit) (alloc needed : N) (force : bool) : N + Z :=
  let step := if force then 1 else istep i in
  if negb force && (needed <=? alloc) then inr 0%Z
  else if step =? 0 then inr (- EXFULL)%Z
  else
    let align := needed mod step in
    let needed := if align =? 0 then needed else wrap64 (needed + (step - align)) in
    if negb (ilimit i =? 0) && (ilimit i <? needed) then inr (- EOVERFLOW)%Z
    else inl needed.

(* realloc(3)/mremap: [ao] is whether the system grants the memory; nothing above PTRDIFF_MAX is ever granted. *)
Definition granted (ao : bool) (bytes : N) : bool := (bytes =? 0) || (ao && (bytes <? 2 ^ 63)).

(* _buffer_linear_realloc, src/base/buf-type-linear.c:30-99. *)
Definition linear_realloc (ao : bool) (b : lbuf) (needed : N) (force : bool) : lbuf * Z :=
  match realloc_size (binit b) (allocated b) needed force with
  | inr r => (b, r)
  | inl n =>
      if granted ao n
      then (with_mem b (firstn (N.to_nat n) (bmem b) ++ repeat None (N.to_nat n - length (bmem b))), 0%Z)
      else (b, (- ENOMEM)%Z)
  end.

(* _buffer_linear_count, src/base/buf-type-linear.c:18-28. *)
Definition linear_count (b : lbuf) : N :=
  match bmode b with
  | PLAIN => bused b
  | PREFIX => if bused b =? 0 then 0 else sub64 (bused b) PREFIX_LEN
  end.

(* The initial number of bytes, src/base/buf-type-linear.c:103-107 and 149-152. *)
Definition linear_needed (m : bufmode) (i : bufinit) : N :=
  match m with PLAIN => isize i | PREFIX => wrap64 (isize i + PREFIX_LEN) end.

(* sid_buf_create, src/base/buf.c:29-70, for a linear buffer (_buffer_linear_create,
   src/base/buf-type-linear.c:101-115).  Allocation of struct sid_buf itself is assumed to succeed. *)
Definition linear_create (ao : bool) (m : bufmode) (i : bufinit) : outcome (lbuf + Z) :=
  let! ok := check_buf i in
  if negb ok then Ok (inr (- EINVAL)%Z)
  else
    let b := {| bmode := m; binit := i; bmem := []; bused := 0; bmark := None |} in
    let (b, r) := linear_realloc ao b (linear_needed m i) true in
    Ok (if (r <? 0)%Z then inr r else inl b).

(* _buffer_linear_reset, src/base/buf-type-linear.c:144-155. *)
Definition linear_reset (ao : bool) (b : lbuf) : lbuf * Z :=
  linear_realloc ao (with_used b 0) (linear_needed (bmode b) (binit b)) true.

(* sid_buf_reset, src/base/buf.c:97-103. *)
Definition sid_buf_reset (ao : bool) (b : lbuf) : lbuf * Z := linear_reset ao (with_mark b None).

(* sid_buf_reset_init, src/base/buf.c:78-95: on a rejected init the stat is restored but the mark stays cleared. *)
Definition sid_buf_reset_init (ao : bool) (b : lbuf) (i : option bufinit) : outcome (lbuf * Z) :=
  match i with
  | None => Ok (b, (- EINVAL)%Z)
  | Some i =>
      let! ok := check_buf i in
      if negb ok then Ok (with_mark b None, (- EINVAL)%Z)
      else Ok (linear_reset ao (with_init (with_mark b None) i))
  end.

(* Store cells at offset [pos]; outside the allocation: undefined. *)
Definition store (m : list cell) (pos : N) (d : list cell) : outcome (list cell) :=
  if pos + N.of_nat (length d) <=? N.of_nat (length m)
  then Ok (firstn (N.to_nat pos) m ++ d ++ skipn (N.to_nat pos + length d) m)
  else UB.

(* The position where an addition starts, src/base/buf-type-linear.c:159-165. *)
Definition add_start (b : lbuf) : N :=
  match bmode b with PREFIX => if bused b =? 0 then PREFIX_LEN else bused b | PLAIN => bused b end.

(* What add takes as data: a block of memory, or NULL with a length. *)
Inductive adddata := DBytes (d : bytes) | DZero (len : N).
Definition ad_len (d : adddata) : N := match d with DBytes d => N.of_nat (length d) | DZero n => n end.
Definition ad_bytes (d : adddata) : bytes := match d with DBytes d => d | DZero n => repeat NUL (N.to_nat n) end.

(* _buffer_linear_add, src/base/buf-type-linear.c:157-191.  Result: buffer, code, offset handed out in *mem
   (None = NULL), *pos. *)
Definition linear_add (ao : bool) (b : lbuf) (d : adddata) : outcome (lbuf * Z * option N * N) :=
  let used := add_start b in
  let start_pos := linear_count b in
  let (b, r) := linear_realloc ao b (wrap64 (used + ad_len d)) false in
  if (r <? 0)%Z then Ok (b, r, None, 0)
  else if allocated b =? 0 then Ok (with_used b (wrap64 (used + ad_len d)), 0%Z, None, start_pos)
  else
    let! m := (if allocated b <? used + ad_len d then UB else store (bmem b) used (map Some (ad_bytes d))) in
    Ok (with_used (with_mem b m) (wrap64 (used + ad_len d)), 0%Z, Some used, start_pos).

(* vsnprintf into [avail] bytes at [pos]: the formatted text [s] is truncated to avail - 1 characters and NUL
   terminated; nothing is stored when avail is 0. *)
Definition vsn (m : list cell) (pos avail : N) (s : bytes) : outcome (list cell) :=
  if avail =? 0 then Ok m else store m pos (map Some (firstn (N.to_nat (avail - 1)) s ++ [NUL])).

(* _buffer_linear_fmt_add, src/base/buf-type-linear.c:193-238.  [s] is the text the format produces; vsnprintf
   fails when it is longer than INT_MAX. *)
Definition linear_fmt_add (ao : bool) (b : lbuf) (s : bytes) : outcome (lbuf * Z * option N * N) :=
  let used := add_start b in
  let start_pos := linear_count b in
  let printed := N.of_nat (length s) in
  if allocated b <? used then UB
  else if 2 ^ 31 <=? printed then Ok (b, (- EIO)%Z, None, 0)
  else
    let available := allocated b - used in
    let! m := vsn (bmem b) used available s in
    let b := with_mem b m in
    if available <=? printed then
      let (b, r) := linear_realloc ao b (wrap64 (used + printed + 1)) false in
      if (r <? 0)%Z then Ok (b, r, None, 0)
      else
        let! m := vsn (bmem b) used (sub64 (allocated b) used) s in
        Ok (with_used (with_mem b m) (wrap64 (used + printed + 1)), 0%Z, Some used, start_pos)
    else Ok (with_used b (wrap64 (used + printed + 1)), 0%Z, Some used, start_pos).

(* The mark handling of sid_buf_add / sid_buf_add_fmt, src/base/buf.c:105-174.  [wantmem] is whether the caller passes a [mem]
   pointer. *)
Definition buf_add_gen (f : lbuf -> outcome (lbuf * Z * option N * N)) (b : lbuf) (wantmem : bool)
  : outcome (lbuf * Z * option N * N) :=
  match bmark b with
  | Some _ => Ok (b, (- EBUSY)%Z, None, 0)
  | None =>
      let! (b, r, p, pos) := f b in
      if (r <? 0)%Z then Ok (b, r, None, 0)
      else Ok (if wantmem then with_mark b (Some pos) else b, 0%Z, if wantmem then p else None, pos)
  end.
Definition sid_buf_add ao b d wantmem := buf_add_gen (fun b => linear_add ao b d) b wantmem.
Definition sid_buf_add_fmt ao b s wantmem := buf_add_gen (fun b => linear_fmt_add ao b s) b wantmem.

(* _buffer_linear_release, src/base/buf-type-linear.c:240-255. *)
Definition linear_release (b : lbuf) (pos : N) (rewind : bool) : lbuf * Z :=
  let b := match bmark b with
           | Some mp => if pos <=? mp then with_mark b None else b
           | None => b
           end in
  (if rewind then with_used b (match bmode b with PREFIX => wrap64 (pos + PREFIX_LEN) | PLAIN => pos end) else b,
   0%Z).

(* sid_buf_pos_t, src/include/base/buf.h:19-22. *)
Inductive whence := ABS | REL.

(* _do_sid_buf_release, src/base/buf.c:176-190. *)
Definition do_release (b : lbuf) (pos : N) (w : whence) (rewind : bool) : lbuf * Z :=
  let count := linear_count b in
  if count =? 0 then (b, if pos =? 0 then 0%Z else (- ERANGE)%Z)
  else if count <? pos then (b, (- ERANGE)%Z)
  else linear_release b (match w with REL => count - pos | ABS => pos end) rewind.

(* _do_sid_buf_mem_release, src/base/buf.c:202-208, with _buffer_linear_mem_release,
   src/base/buf-type-linear.c:257-268.  A pointer is its signed distance from buf->mem; None is NULL. *)
Definition do_mem_release (b : lbuf) (p : option Z) (rewind : bool) : lbuf * Z :=
  match p with
  | None => (b, (- EINVAL)%Z)
  | Some z =>
      if (z <? 0)%Z then (b, (- EINVAL)%Z)
      else
        let pos := Z.to_N z in
        if bused b <? pos then (b, (- ERANGE)%Z)
        else linear_release b (match bmode b with PREFIX => sub64 pos PREFIX_LEN | PLAIN => pos end) rewind
  end.

(* sid_buf_get_data_from, src/base/buf.c:225-236 (mark.set is compared as the integer 1), with
   _buffer_linear_data_get, src/base/buf-type-linear.c:295-315.  Result: offset of the data and its size. *)
Definition sid_buf_get_data_from (b : lbuf) (pos : N) : lbuf * Z * option (N * N) :=
  if linear_count b <? pos then (b, (- ERANGE)%Z, None)
  else
    let b := if match bmark b with None => true | Some _ => pos <? 1 end then with_mark b (Some pos) else b in
    (b, 0%Z,
     Some (match bmode b with
           | PLAIN => (pos, sub64 (bused b) pos)
           | PREFIX => (PREFIX_LEN + pos, if bused b =? 0 then 0 else sub64 (sub64 (bused b) PREFIX_LEN) pos)
           end)).

(* The cells a caller reads through (offset, size); reading outside the allocation is undefined. *)
Definition load (b : lbuf) (off n : N) : outcome (list cell) :=
  if n =? 0 then Ok []
  else if off + n <=? allocated b then Ok (firstn (N.to_nat n) (skipn (N.to_nat off) (bmem b))) else UB.

(* A caller's history of operations on one linear buffer; every operation that may allocate carries the system's answer. *)
Inductive bufop :=
| OAdd (ao : bool) (d : adddata) (wantmem : bool)
| OFmt (ao : bool) (s : bytes) (wantmem : bool)
| ORelease (pos : N) (w : whence) (rewind : bool)
| OMemRelease (p : option Z) (rewind : bool)
| OReset (ao : bool)
| OResetInit (ao : bool) (i : option bufinit)
| OGet (pos : N).

(* What the caller sees: the return code, *mem, *pos, and the bytes read through the returned data pointer. *)
Record bufres := { ret : Z; rmem : option N; rpos : N; rdata : option (list cell) }.
Definition rcode r : bufres := {| ret := r; rmem := None; rpos := 0; rdata := None |}.

Definition buf_step (b : lbuf) (o : bufop) : outcome (lbuf * bufres) :=
  match o with
  | OAdd ao d w =>
      let! (b, r, m, p) := sid_buf_add ao b d w in Ok (b, {| ret := r; rmem := m; rpos := p; rdata := None |})
  | OFmt ao s w =>
      let! (b, r, m, p) := sid_buf_add_fmt ao b s w in Ok (b, {| ret := r; rmem := m; rpos := p; rdata := None |})
  | ORelease pos w rew => let (b, r) := do_release b pos w rew in Ok (b, rcode r)
  | OMemRelease p rew => let (b, r) := do_mem_release b p rew in Ok (b, rcode r)
  | OReset ao => let (b, r) := sid_buf_reset ao b in Ok (b, rcode r)
  | OResetInit ao i => let! (b, r) := sid_buf_reset_init ao b i in Ok (b, rcode r)
  | OGet pos =>
      let '(b, r, d) := sid_buf_get_data_from b pos in
      match d with
      | None => Ok (b, rcode r)
      | Some (off, n) =>
          let! l := load b off n in
          Ok (b, {| ret := r; rmem := Some off; rpos := 0; rdata := Some l |})
      end
  end.

Fixpoint buf_run (b : lbuf) (ops : list bufop) : outcome (lbuf * list bufres) :=
  match ops with
  | [] => Ok (b, [])
  | o :: t =>
      let! (b, r) := buf_step b o in
      let! (b, rs) := buf_run b t in
      Ok (b, r :: rs)
  end.

(* ---- Input and output ---- *)

(* Little-endian 32-bit value of four bytes. *)
Definition le32 (a b c d : byte) : N := byteN a + 2 ^ 8 * byteN b + 2 ^ 16 * byteN c + 2 ^ 24 * byteN d.
Definition le32_bytes (n : N) : bytes :=
  map (fun k => ascii_of_N (N.shiftr n k mod 256)) [0; 8; 16; 24].

(* EXPECTED, src/base/buf-type-linear.c:270: reading prefix bytes that were never written is undefined. *)
Definition expected (b : lbuf) : outcome N :=
  if PREFIX_LEN <=? bused b then
    match bmem b with
    | Some c0 :: Some c1 :: Some c2 :: Some c3 :: _ => Ok (le32 c0 c1 c2 c3)
    | _ => UB
    end
  else Ok 0.

(* _buffer_linear_is_complete, src/base/buf-type-linear.c:272-293 (ret_code is always 0 for the two modes). *)
Definition linear_is_complete (b : lbuf) : outcome bool :=
  match bmode b with
  | PLAIN => Ok true
  | PREFIX => if bused b =? 0 then Ok false else let! e := expected b in Ok (bused b =? e)
  end.

(* What the kernel answers to one read(2): up to [k] bytes of what the peer has sent, an error, or (when [k] is 0 or nothing is left)
   end of file. *)
Inductive rdans := RGive (k : N) | RErr (e : Z).

(* read(2) of at most [cap] bytes from a stream whose remaining bytes are [s].  Result: n or -errno, bytes, rest. *)
Definition sys_read (a : rdans) (s : bytes) (cap : N) : Z * bytes * bytes :=
  match a with
  | RErr e => ((- e)%Z, [], s)
  | RGive k =>
      let n := Nat.min (Nat.min (N.to_nat k) (N.to_nat cap)) (length s) in
      (Z.of_nat n, firstn n s, skipn n s)
  end.

(* _buffer_linear_read_plain, src/base/buf-type-linear.c:338-355. *)
Definition linear_read_plain (ao : bool) (a : rdans) (b : lbuf) (s : bytes) : outcome (lbuf * Z * bytes) :=
  let (b, r) := if bused b =? allocated b
                then linear_realloc ao b (wrap64 (allocated b + istep (binit b))) false
                else (b, 0%Z) in
  if (r <? 0)%Z then Ok (b, r, s)
  else
    let '(n, d, s) := sys_read a s (sub64 (allocated b) (bused b)) in
    if (0 <? n)%Z then
      let! m := store (bmem b) (bused b) (map Some d) in
      Ok (with_used (with_mem b m) (bused b + Z.to_N n), n, s)
    else Ok (b, n, s).

(* _buffer_linear_read_with_size_prefix, src/base/buf-type-linear.c:357-392. *)
Definition linear_read_prefix (ao : bool) (a : rdans) (b : lbuf) (s : bytes) : outcome (lbuf * Z * bytes) :=
  let! c := linear_is_complete b in
  if c then Ok (b, (- EXFULL)%Z, s)
  else
    let '(n, d, s) := sys_read a s (sub64 (allocated b) (bused b)) in
    if (0 <? n)%Z then
      let! m := store (bmem b) (bused b) (map Some d) in
      let previous_used := bused b in
      let b := with_used (with_mem b m) (bused b + Z.to_N n) in
      let! e := expected b in
      if e =? 0 then Ok (b, n, s)
      else if e <? PREFIX_LEN then Ok (b, (- EBADE)%Z, s)
      else if previous_used <? PREFIX_LEN then
        let (b, r) := linear_realloc ao b e false in
        Ok (b, if (r <? 0)%Z then r else n, s)
      else Ok (b, n, s)
    else if (n =? 0)%Z then
      let! e := expected b in
      if ((e =? 0) && negb (bused b =? 0)) || (negb (e =? 0) && negb (bused b =? e))
      then Ok (b, (- EBADMSG)%Z, s) else Ok (b, 0%Z, s)
    else Ok (b, n, s).

(* _buffer_linear_read, src/base/buf-type-linear.c:394-404 (sid_buf_read, src/base/buf.c:248-251). *)
Definition sid_buf_read (ao : bool) (a : rdans) (b : lbuf) (s : bytes) : outcome (lbuf * Z * bytes) :=
  match bmode b with
  | PLAIN => linear_read_plain ao a b s
  | PREFIX => linear_read_prefix ao a b s
  end.

(* What the kernel answers to one write: takes [k] bytes (at most what is offered) or fails. *)
Inductive wrans := WTake (k : N) | WErr (e : Z).

(* write(2) of [d]: result code and the bytes that went out. *)
Definition sys_write (a : wrans) (d : bytes) : Z * bytes :=
  match a with
  | WErr e => ((- e)%Z, [])
  | WTake k => let n := Nat.min (N.to_nat k) (length d) in (Z.of_nat n, firstn n d)
  end.

(* The bytes of initialised cells; None if one was never written. *)
Fixpoint all_some (l : list cell) : option bytes :=
  match l with
  | [] => Some []
  | Some c :: t => match all_some t with Some r => Some (c :: r) | None => None end
  | None :: _ => None
  end.

(* _update_size_prefix, src/base/buf-type-linear.c:317-320: stores the low 32 bits of usage.used. *)
Definition linear_update_prefix (b : lbuf) : outcome lbuf :=
  let! m := store (bmem b) 0 (map Some (le32_bytes (wrap32 (bused b)))) in Ok (with_mem b m).

(* _buffer_linear_write, src/base/buf-type-linear.c:406-439 (sid_buf_write, src/base/buf.c:253-256).  sendfile of the
   mapped file sends the same bytes as write.  Handing a byte that was never written to the kernel counts as
   undefined here. *)
Definition linear_write (a : wrans) (b : lbuf) (pos : N) : outcome (lbuf * Z * bytes) :=
  if pos =? bused b then Ok (b, (- ENODATA)%Z, [])
  else if bused b <? pos then Ok (b, (- ERANGE)%Z, [])
  else
    let! b := match bmode b with PREFIX => linear_update_prefix b | PLAIN => Ok b end in
    let! l := load b pos (bused b - pos) in
    match all_some l with
    | None => UB
    | Some d => let (n, out) := sys_write a d in Ok (b, n, out)
    end.

(* sid_buf_write_all, src/base/buf.c:268-291, over the kernel's answers [ans] (the loop may need more answers
   than given: result None, still running). *)
Section WriteAll.
  Variable buf : Type.
  Variable wr : wrans -> buf -> N -> outcome (buf * Z * bytes).
  Fixpoint write_all (ans : list wrans) (b : buf) (pos : N) : outcome (buf * option Z * bytes) :=
    match ans with
    | [] =>
        (* -ENODATA and -ERANGE need no answer from the kernel *)
        let! (b, n, out) := wr (WErr EAGAIN) b pos in
        if (n =? - ENODATA)%Z then Ok (b, Some 0%Z, [])
        else if (n =? - EAGAIN)%Z then Ok (b, None, [])
        else Ok (b, Some n, [])
    | a :: ans =>
        let! (b, n, out) := wr a b pos in
        if (n <? 0)%Z then
          if (n =? - ENODATA)%Z then Ok (b, Some 0%Z, [])
          else if (n =? - EAGAIN)%Z || (n =? - EINTR)%Z then write_all ans b pos
          else Ok (b, Some n, [])
        else
          let! (b, r, rest) := write_all ans b (pos + Z.to_N n) in
          Ok (b, r, out ++ rest)
    end.
End WriteAll.

(* ---- Vector buffers ---- *)

(* struct iovec: never written, {NULL, 0}, or a block of memory (whose contents the owner keeps until it is written out;
   [iov_base += k; iov_len -= k] is [skipn k]). *)
Inductive iovec := IUninit | INull | IData (d : bytes).

(* struct sid_buf for a vector buffer; [vitems] has usage.allocated elements.  In size-prefix mode element 0 is
   the 4-byte prefix allocated at creation. *)
Record vbuf := { vmode : bufmode; vinit : bufinit; vitems : list iovec; vused : N; vmark : option N }.
Definition vallocated (b : vbuf) : N := N.of_nat (length (vitems b)).
Definition vwith_items (b : vbuf) m : vbuf :=
  {| vmode := vmode b; vinit := vinit b; vitems := m; vused := vused b; vmark := vmark b |}.
Definition vwith_used (b : vbuf) u : vbuf :=
  {| vmode := vmode b; vinit := vinit b; vitems := vitems b; vused := u; vmark := vmark b |}.
Definition vwith_mark (b : vbuf) k : vbuf :=
  {| vmode := vmode b; vinit := vinit b; vitems := vitems b; vused := vused b; vmark := k |}.

(* VECTOR_ITEM_SIZE, src/base/buf-type-vector.c:16. *)
Definition ITEM : N := 16.

(* _buffer_vector_realloc, src/base/buf-type-vector.c:30-103 (needed * 16 is taken modulo 2^64; a wrapped size is
   granted by the system but then the elements are not there: undefined). *)
Definition vector_realloc (ao : bool) (b : vbuf) (needed : N) (force : bool) : outcome (vbuf * Z) :=
  match realloc_size (vinit b) (vallocated b) needed force with
  | inr r => Ok (b, r)
  | inl n =>
      if 2 ^ 64 <=? n * ITEM then UB
      else if granted ao (n * ITEM)
      then Ok (vwith_items b (firstn (N.to_nat n) (vitems b)
                               ++ repeat IUninit (N.to_nat n - length (vitems b))), 0%Z)
      else Ok (b, (- ENOMEM)%Z)
  end.

(* _buffer_vector_count, src/base/buf-type-vector.c:18-28. *)
Definition vector_count (b : vbuf) : N :=
  match vmode b with PLAIN => vused b | PREFIX => if vused b =? 0 then 0 else vused b - 1 end.

(* src/base/buf-type-vector.c:107-111 and 176-179. *)
Definition vector_needed (m : bufmode) (i : bufinit) : N :=
  match m with PLAIN => isize i | PREFIX => wrap64 (isize i + 1) end.

(* sid_buf_create (src/base/buf.c:29-70) for a vector buffer, _buffer_vector_create,
   src/base/buf-type-vector.c:105-136.  The malloc of the 4 prefix bytes is assumed to succeed; they start
   unwritten, which is represented by four NULs as they are always set before being sent. *)
Definition vector_create (ao : bool) (m : bufmode) (i : bufinit) : outcome (vbuf + Z) :=
  let! ok := check_buf i in
  if negb ok then Ok (inr (- EINVAL)%Z)
  else
    let b := {| vmode := m; vinit := i; vitems := []; vused := 0; vmark := None |} in
    let! (b, r) := vector_realloc ao b (vector_needed m i) true in
    if (r <? 0)%Z then Ok (inr r)
    else Ok (inl (match m with
                  | PREFIX => vwith_items b (list_set (vitems b) 0 (IData (repeat NUL 4)))
                  | PLAIN => b
                  end)).

(* sid_buf_reset (src/base/buf.c:97-103) with _buffer_vector_reset, src/base/buf-type-vector.c:170-182. *)
Definition vector_reset (ao : bool) (b : vbuf) : outcome (vbuf * Z) :=
  vector_realloc ao (vwith_used (vwith_mark b None) 0) (vector_needed (vmode b) (vinit b)) true.

(* The [while (len)] loop, src/base/buf-type-vector.c:209-213: clears elements len-1 .. 0. *)
Definition clear_items (l : list iovec) (len : N) : outcome (list iovec) :=
  if len <=? N.of_nat (length l)
  then Ok (repeat INull (N.to_nat len) ++ skipn (N.to_nat len) l) else UB.

(* What vector add takes: a block of memory with its length, or NULL with a number of elements. *)
Inductive vadddata := VData (d : bytes) | VNull (n : N).
Definition vd_count (d : vadddata) : N := match d with VData _ => 1 | VNull n => n end.

(* sid_buf_add (src/base/buf.c:105-125) with _buffer_vector_add, src/base/buf-type-vector.c:184-229.  Result:
   buffer, code, element index handed out in *mem, *pos. *)
Definition vector_add (ao : bool) (b : vbuf) (d : vadddata) (wantmem : bool) : outcome (vbuf * Z * option N * N) :=
  match vmark b with
  | Some _ => Ok (b, (- EBUSY)%Z, None, 0)
  | None =>
      let used := match vmode b with PREFIX => if vused b =? 0 then 1 else vused b | PLAIN => vused b end in
      let count := vd_count d in
      let start_pos := vector_count b in
      let! (b, r) := vector_realloc ao b (wrap64 (used + count)) false in
      if (r <? 0)%Z then Ok (b, r, None, 0)
      else
        let! b := (if vallocated b =? 0 then Ok b
                   else
                     let! l := match d with
                               | VData x => if used <? vallocated b
                                            then Ok (list_set (vitems b) (N.to_nat used) (IData x)) else UB
                               | VNull n => clear_items (vitems b) n
                               end in
                     Ok (vwith_used (vwith_items b l) (wrap64 (used + count)))) in
        let b' := if wantmem then vwith_mark b (Some start_pos) else b in
        Ok (b', 0%Z, if wantmem && negb (vallocated b =? 0) then Some (sub64 (vused b) count) else None, start_pos)
  end.

(* sid_buf_unbind / sid_buf_rewind on a vector: _do_sid_buf_release (src/base/buf.c:176-190) with
   _buffer_vector_release, src/base/buf-type-vector.c:236-251. *)
Definition vector_release (b : vbuf) (pos : N) (w : whence) (rewind : bool) : vbuf * Z :=
  let count := vector_count b in
  if count =? 0 then (b, if pos =? 0 then 0%Z else (- ERANGE)%Z)
  else if count <? pos then (b, (- ERANGE)%Z)
  else
    let pos := match w with REL => count - pos | ABS => pos end in
    let b := match vmark b with Some mp => if pos <=? mp then vwith_mark b None else b | None => b end in
    (if rewind then vwith_used b (match vmode b with PREFIX => pos + 1 | PLAIN => pos end) else b, 0%Z).

(* sid_buf_get_data_from (src/base/buf.c:225-236) with _buffer_vector_data_get, src/base/buf-type-vector.c:289-309.
   Result: signed element index of the data pointer and number of elements. *)
Definition vector_get (b : vbuf) (pos : N) : vbuf * Z * option (Z * N) :=
  if vector_count b <? pos then (b, (- ERANGE)%Z, None)
  else
    let b := if match vmark b with None => true | Some _ => pos <? 1 end then vwith_mark b (Some pos) else b in
    (b, 0%Z,
     Some (match vmode b with
           | PLAIN => ((- Z.of_N pos)%Z, sub64 (vused b) pos)
           | PREFIX => (Z.of_N (pos + 1), if vused b =? 0 then 0 else sub64 (sub64 (vused b) pos) 1)
           end)).

(* The elements a caller reads through such a pointer. *)
Definition vload (b : vbuf) (off : Z) (n : N) : outcome (list iovec) :=
  if n =? 0 then Ok []
  else if (off <? 0)%Z || (vallocated b <? Z.to_N off + n) then UB
  else Ok (firstn (N.to_nat n) (skipn (Z.to_nat off) (vitems b))).

Inductive vecop :=
| VAdd (ao : bool) (d : vadddata) (wantmem : bool)
| VRelease (pos : N) (w : whence) (rewind : bool)
| VReset (ao : bool)
| VGet (pos : N).

Record vecres := { vret : Z; vrmem : option N; vrpos : N; vrdata : option (list iovec) }.
Definition vcode r : vecres := {| vret := r; vrmem := None; vrpos := 0; vrdata := None |}.

Definition vec_step (b : vbuf) (o : vecop) : outcome (vbuf * vecres) :=
  match o with
  | VAdd ao d w =>
      let! (b, r, m, p) := vector_add ao b d w in Ok (b, {| vret := r; vrmem := m; vrpos := p; vrdata := None |})
  | VRelease pos w rew => let (b, r) := vector_release b pos w rew in Ok (b, vcode r)
  | VReset ao => let! (b, r) := vector_reset ao b in Ok (b, vcode r)
  | VGet pos =>
      let '(b, r, d) := vector_get b pos in
      match d with
      | None => Ok (b, vcode r)
      | Some (off, n) =>
          let! l := vload b off n in
          Ok (b, {| vret := r; vrmem := None; vrpos := 0; vrdata := Some l |})
      end
  end.

Fixpoint vec_run (b : vbuf) (ops : list vecop) : outcome (vbuf * list vecres) :=
  match ops with
  | [] => Ok (b, [])
  | o :: t =>
      let! (b, r) := vec_step b o in
      let! (b, rs) := vec_run b t in
      Ok (b, r :: rs)
  end.

Definition iov_bytes (i : iovec) : option bytes :=
  match i with IUninit => None | INull => Some [] | IData d => Some d end.
Definition iov_len (i : iovec) : option N := option_map (fun d => N.of_nat (length d)) (iov_bytes i).

(* Bytes of consecutive elements; None if one was never written. *)
Fixpoint iovs_bytes (l : list iovec) : option bytes :=
  match l with
  | [] => Some []
  | i :: t => match iov_bytes i, iovs_bytes t with Some d, Some r => Some (d ++ r) | _, _ => None end
  end.

(* _update_size_prefix, src/base/buf-type-vector.c:311-322: sums iov_len over the used elements (modulo 2^32) and
   stores it through iov[0].iov_base; NULL there is undefined. *)
Definition vector_update_prefix (b : vbuf) : outcome vbuf :=
  match iovs_bytes (firstn (N.to_nat (vused b)) (vitems b)), vitems b with
  | Some all, IData p :: t =>
      if (length p =? 4)%nat
      then Ok (vwith_items b (IData (le32_bytes (wrap32 (N.of_nat (length all)))) :: t)) else UB
  | _, _ => UB
  end.

(* The search loop of _buffer_vector_write, src/base/buf-type-vector.c:370-389: index of the element where
   byte [off] lies and the offset in it, or the remaining offset when past the end. *)
Fixpoint vec_seek (l : list iovec) (i : nat) (off : N) : outcome ((nat * N) + N) :=
  match l with
  | [] => Ok (inr off)
  | x :: t =>
      match iov_len x with
      | None => UB
      | Some n => if off <? n then Ok (inl (i, off)) else vec_seek t (S i) (off - n)
      end
  end.

(* _buffer_vector_write, src/base/buf-type-vector.c:362-409: the adjusted element is restored after writev, so the
   buffer only changes by the prefix update. *)
Definition vector_write (a : wrans) (b : vbuf) (pos : N) : outcome (vbuf * Z * bytes) :=
  let l := firstn (N.to_nat (vused b)) (vitems b) in
  let! s := (if pos =? 0 then Ok (if vused b =? 0 then inr 0 else inl (0%nat, 0)) else vec_seek l 0 pos) in
  match s with
  | inr off => Ok (b, if off =? 0 then (- ENODATA)%Z else (- ERANGE)%Z, [])
  | inl (idx, off) =>
      let! b := match vmode b with PREFIX => if pos =? 0 then vector_update_prefix b else Ok b | PLAIN => Ok b end in
      match iovs_bytes (skipn idx (firstn (N.to_nat (vused b)) (vitems b))) with
      | None => UB
      | Some d => let (n, out) := sys_write a (skipn (N.to_nat off) d) in Ok (b, n, out)
      end
  end.
