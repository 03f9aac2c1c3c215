(* What the buffer properties say, without the buffer's own memory layout. *)
From Verif Require Import Base Buf_Model.
Local Open Scope N_scope.

Definition pfx (m : bufmode) : N := match m with PLAIN => 0 | PREFIX => 4 end.
Definition len (c : bytes) : N := N.of_nat (length c).

(* An init the API documents as valid: no limit, or a limit not below the size and a multiple of the step. *)
Definition valid_init (i : bufinit) : Prop :=
  ilimit i = 0 \/ (isize i <= ilimit i /\ istep i <> 0 /\ exists k, k <> 0 /\ ilimit i = k * istep i).

(* Sizes that can belong to real memory. *)
Definition init_sizes (i : bufinit) : Prop := isize i <= 2 ^ 62 /\ istep i <= 2 ^ 62 /\ ilimit i < 2 ^ 64.
(* ... and that do not divide by zero in _check_buf. *)
Definition init_ok (i : bufinit) : Prop := init_sizes i /\ (istep i = 0 -> ilimit i = 0).

(* Arguments a caller may pass: block sizes below 2^62, and only pointers that point into the data. *)
Definition op_ok (m : bufmode) (o : bufop) : Prop :=
  match o with
  | OAdd _ d _ => ad_len d <= 2 ^ 62
  | OFmt _ s _ => len s <= 2 ^ 62
  | OMemRelease (Some z) _ => (z < 0 \/ Z.of_N (pfx m) <= z)%Z
  | OResetInit _ (Some i) => init_ok i
  | _ => True
  end.

Definition abs_pos (c : bytes) (pos : N) (w : whence) : N := match w with ABS => pos | REL => len c - pos end.

(* One operation on a buffer holding [c]: what the caller may see and what the buffer holds afterwards. *)
Definition buf_spec (m : bufmode) (c : bytes) (o : bufop) (r : bufres) (c' : bytes) : Prop :=
  match o with
  | OAdd _ d w =>
      (ret r = 0%Z /\ c' = c ++ ad_bytes d /\ rpos r = len c /\
       (w = true -> ad_len d <> 0 -> rmem r = Some (pfx m + len c))) \/ ((ret r < 0)%Z /\ c' = c)
  | OFmt _ s w =>
      (ret r = 0%Z /\ c' = c ++ s ++ [NUL] /\ rpos r = len c /\ (w = true -> rmem r = Some (pfx m + len c))) \/ ((ret r < 0)%Z /\ c' = c)
  | ORelease pos w rew =>
      if pos <=? len c
      then ret r = 0%Z /\ c' = (if rew then firstn (N.to_nat (abs_pos c pos w)) c else c)
      else ret r = (- ERANGE)%Z /\ c' = c
  | OMemRelease None _ => ret r = (- EINVAL)%Z /\ c' = c
  | OMemRelease (Some z) rew =>
      if (z <? 0)%Z then ret r = (- EINVAL)%Z /\ c' = c
      else
        let p := Z.to_N z - pfx m in
        if p <=? len c
        then c' = (if rew then firstn (N.to_nat p) c else c) /\ (c <> [] -> ret r = 0%Z)
        else ret r = (- ERANGE)%Z /\ c' = c
  | OReset _ => c' = [] /\ (ret r <= 0)%Z
  | OResetInit _ None => ret r = (- EINVAL)%Z /\ c' = c
  | OResetInit _ (Some i) =>
      (valid_init i /\ c' = [] /\ (ret r <= 0)%Z) \/ (~ valid_init i /\ ret r = (- EINVAL)%Z /\ c' = c)
  | OGet pos =>
      c' = c /\
      if pos <=? len c
      then ret r = 0%Z /\ rmem r = Some (pfx m + pos) /\ rdata r = Some (map Some (skipn (N.to_nat pos) c))
      else ret r = (- ERANGE)%Z
  end.

(* A history of operations and results explained by the contents [c] before and [c'] after. *)
Inductive buf_specs (m : bufmode) : bytes -> list bufop -> list bufres -> bytes -> Prop :=
| bs_nil c : buf_specs m c [] [] c
| bs_cons c o r c1 ops rs c2 :
    buf_spec m c o r c1 -> buf_specs m c1 ops rs c2 -> buf_specs m c (o :: ops) (r :: rs) c2.

(* No sid_buf_reset_init failed after accepting the new parameters. *)
Definition resets_done (ops : list bufop) (rs : list bufres) : Prop :=
  Forall (fun x : bufop * bufres =>
            match fst x with
            | OResetInit _ _ => ret (snd x) = 0%Z \/ ret (snd x) = (- EINVAL)%Z
            | _ => True
            end) (combine ops rs).

(* The positions (data offsets) of memory handed out and not yet released: an add with a [mem] pointer and
   get_data hand out; unbind/rewind at p releases everything at or after p; reset releases all. *)
Definition bound_step (m : bufmode) (c : bytes) (bound : list N) (o : bufop) (r : bufres) : list N :=
  if negb (ret r =? 0)%Z then match o with OReset _ => [] | _ => bound end
  else
    match o with
    | OAdd _ _ true | OFmt _ _ true => len c :: bound
    | OAdd _ _ false | OFmt _ _ false => bound
    | OGet pos => pos :: bound
    | ORelease pos w _ => filter (fun q => q <? abs_pos c pos w) bound
    | OMemRelease (Some z) _ => filter (fun q => q <? Z.to_N z - pfx m) bound
    | OMemRelease None _ => bound
    | OReset _ | OResetInit _ _ => []
    end.

(* Histories for which the mark is meant: no reset_init, and data asked for either from the start or not before an earlier hand-out. *)
Definition mark_op_ok (bound : list N) (o : bufop) : Prop :=
  match o with
  | OGet pos => pos = 0 \/ Forall (fun q => q <= pos) bound
  | OResetInit _ _ => False
  | _ => True
  end.

(* The bound positions after a history, given the contents it started with. *)
Inductive bound_run (m : bufmode) : bytes -> list N -> list bufop -> list bufres -> bytes -> list N -> Prop :=
| br_nil c bd : bound_run m c bd [] [] c bd
| br_cons c bd o r c1 ops rs c2 bd2 :
    mark_op_ok bd o -> buf_spec m c o r c1 ->
    bound_run m c1 (bound_step m c bd o r) ops rs c2 bd2 ->
    bound_run m c bd (o :: ops) (r :: rs) c2 bd2.

(* ---- Reading and writing ---- *)

(* The announced size of a message on the wire, once its four prefix bytes are there. *)
Definition announced (w : bytes) : option N :=
  match w with a :: b :: c :: d :: _ => Some (le32 a b c d) | _ => None end.

(* A size-prefixed message. *)
Definition message (payload : bytes) : bytes := le32_bytes (4 + len payload) ++ payload.

(* A sequence of reads from a stream holding [s]: kernel answers (allocator's and read's), results, rest. *)
Fixpoint read_run (ans : list (bool * rdans)) (b : lbuf) (s : bytes) : outcome (lbuf * list Z * bytes) :=
  match ans with
  | [] => Ok (b, [], s)
  | (ao, a) :: ans =>
      let! (b, n, s) := sid_buf_read ao a b s in
      let! (b, ns, s) := read_run ans b s in
      Ok (b, n :: ns, s)
  end.

(* errno values are positive. *)
Definition rdans_ok (a : rdans) : Prop := match a with RErr e => (0 < e)%Z | RGive _ => True end.
Definition wrans_ok (a : wrans) : Prop := match a with WErr e => (0 < e)%Z /\ e <> ENODATA | WTake _ => True end.

(* Number of answers that take at least one byte. *)
Fixpoint takes (ans : list wrans) : N :=
  match ans with
  | [] => 0
  | WTake k :: t => (if k =? 0 then 0 else 1) + takes t
  | WErr _ :: t => takes t
  end.

(* What a complete transmission of the contents looks like; a buffer that nothing was ever added to sends nothing. *)
Definition wire (m : bufmode) (empty : bool) (c : bytes) : bytes :=
  if empty then []
  else match m with PLAIN => c | PREFIX => le32_bytes (wrap32 (4 + len c)) ++ c end.

(* Outcome of write_all given what had to be sent. *)
Definition write_all_spec (ans : list wrans) (w : bytes) (r : option Z) (out : bytes) : Prop :=
  exists rest, w = out ++ rest /\
    match r with
    | Some z => if (z =? 0)%Z then rest = []
                else exists e, z = (- e)%Z /\ In (WErr e) ans /\ e <> EAGAIN /\ e <> EINTR
    | None => rest <> [] /\ takes ans < len w
    end.

(* ---- Vector buffers ---- *)

Definition vop_ok (m : bufmode) (o : vecop) : Prop :=
  match o with
  | VAdd _ (VData _) _ => True
  | VAdd _ (VNull _) _ => False
  | VGet pos => m = PREFIX \/ pos = 0
  | _ => True
  end.

(* Element counts that can belong to real memory. *)
Definition vinit_ok (i : bufinit) : Prop := isize i < 2 ^ 58 /\ istep i < 2 ^ 58 /\ ilimit i < 2 ^ 64 /\ (istep i = 0 -> ilimit i = 0).

Definition vabs_pos (c : list bytes) (pos : N) (w : whence) : N :=
  match w with ABS => pos | REL => N.of_nat (length c) - pos end.

Definition vec_spec (c : list bytes) (o : vecop) (r : vecres) (c' : list bytes) : Prop :=
  match o with
  | VAdd _ (VData d) _ =>
      (vret r = 0%Z /\ c' = c ++ [d] /\ vrpos r = N.of_nat (length c)) \/ ((vret r < 0)%Z /\ c' = c)
  | VAdd _ (VNull _) _ => False
  | VRelease pos w rew =>
      if pos <=? N.of_nat (length c)
      then vret r = 0%Z /\ c' = (if rew then firstn (N.to_nat (vabs_pos c pos w)) c else c)
      else vret r = (- ERANGE)%Z /\ c' = c
  | VReset _ => c' = [] /\ (vret r <= 0)%Z
  | VGet pos =>
      c' = c /\
      if pos <=? N.of_nat (length c)
      then vret r = 0%Z /\ vrdata r = Some (map IData (skipn (N.to_nat pos) c))
      else vret r = (- ERANGE)%Z
  end.

Inductive vec_specs : list bytes -> list vecop -> list vecres -> list bytes -> Prop :=
| vs_nil c : vec_specs c [] [] c
| vs_cons c o r c1 ops rs c2 :
    vec_spec c o r c1 -> vec_specs c1 ops rs c2 -> vec_specs c (o :: ops) (r :: rs) c2.
