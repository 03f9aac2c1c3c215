(* Memory behind the values of the key-value store, src/resource/kvs.c:36-41 and 110-330. *)
From Verif Require Import Base.
Local Open Scope nat_scope.

(* Memory is a list of malloc'ed blocks, None once freed; an address is a block and an offset in it.  A block holds bytes, an
   array of struct iovec, or a struct kv_store_value (src/resource/kvs.c:36-41): size, the VECTOR, REF and AUTOFREE bits of
   ext_flags, the ALLOC bit of int_flags, and data[], which holds an address (REF), or an array of struct iovec (16 bytes
   each) followed by bytes (without REF; the array is empty unless VECTOR). *)
Notation addr := (option (nat * nat))%type (only parsing).
Notation iovec := (option (nat * nat) * nat)%type (only parsing).
Record val := { vsz : nat; fvec : bool; fref : bool; fauto : bool; fint : bool; vptr : addr; varr : list iovec; vraw : bytes }.
Inductive blk := Raw (bs : bytes) | Iov (l : list iovec) | Val (v : val).
Notation mem := (list (option blk)) (only parsing).

Definition block (m : mem) (b : nat) : option blk := match nth_error m b with Some x => x | None => None end.
(* Reading len bytes; a length of 0 reads nothing. *)
Definition slice (bs : bytes) (o len : nat) : outcome bytes :=
  if o + len <=? length bs then Ok (firstn len (skipn o bs)) else UB.
Definition mread (m : mem) (p : addr) (len : nat) : outcome bytes :=
  match len with
  | O => Ok []
  | _ => match p with
         | None => UB
         | Some (b, o) => match block m b with
                          | Some (Raw bs) => slice bs o len
                          | Some (Val v) => if 16 * length (varr v) <=? o then slice (vraw v) (o - 16 * length (varr v)) len else UB
                          | _ => UB
                          end
         end
  end.
(* free: NULL is ignored, anything but the start of an allocated block is undefined. *)
Definition mfree (m : mem) (p : addr) : outcome mem :=
  match p with
  | None => Ok m
  | Some (b, O) => match block m b with Some _ => Ok (list_set m b None) | None => UB end
  | Some _ => UB
  end.
(* memcpy into a buffer *)
Definition splice (area : bytes) (o : nat) (d : bytes) : outcome bytes :=
  if o + length d <=? length area then Ok (firstn o area ++ d ++ skipn (o + length d) area) else UB.

(* What the caller passes (src/resource/kvs.c:563-571): an array of struct iovec by address and count, or one address and size. *)
Inductive source := Vector (b : nat) (cnt : nat) | Scalar (p : addr) (len : nat).
Definition items_at (m : mem) (b cnt : nat) : outcome (list iovec) :=
  match block m b with Some (Iov l) => if cnt <=? length l then Ok (firstn cnt l) else UB | _ => UB end.
Definition total (l : list iovec) : nat := list_sum (map snd l).

(* The copying loop of form F, src/resource/kvs.c:274-277 *)
Fixpoint copy_merge (m : mem) (area : bytes) (p : nat) (l : list iovec) : outcome bytes :=
  match l with
  | [] => Ok area
  | (base, len) :: t => let! d := mread m base len in let! area := splice area p d in copy_merge m area (p + len) t
  end.
(* ... and of form E, src/resource/kvs.c:292-297: [v] is the address of the value, [p] the offset in data[], [hd] the size of the array. *)
Fixpoint copy_array (m : mem) (v hd : nat) (area : bytes) (p : nat) (l : list iovec) : outcome (list iovec * bytes) :=
  match l with
  | [] => Ok ([], area)
  | (base, len) :: t =>
      let! d := mread m base len in
      let! area := splice area (p - hd) d in
      let! (arr, area) := copy_array m v hd area (p + len) t in
      Ok ((Some (v, p), len) :: arr, area)
  end.
(* ... and of form H, src/resource/kvs.c:250-256: block [q] is the merged area, block [b] the caller's array, rewritten in place. *)
Fixpoint merge_ref (m : mem) (auto : bool) (q b i p : nat) (l : list iovec) : outcome mem :=
  match l with
  | [] => Ok m
  | (base, len) :: t =>
      let! d := mread m base len in
      match block m q with
      | Some (Raw area) =>
          let! area := splice area p d in
          let m := list_set m q (Some (Raw area)) in
          let! m := (if auto then mfree m base else Ok m) in
          match block m b with
          | Some (Iov arr) => merge_ref (list_set m b (Some (Iov (list_set arr i (Some (q, p), len))))) auto q b (S i) (p + len) t
          | _ => UB
          end
      | _ => UB
      end
  end.
Definition zeros (n : nat) : bytes := repeat NUL n.

(* _create_kv_store_value, src/resource/kvs.c:213-330: memory and address of the value, value_size.  Simplifications: malloc
   succeeds; the value block appears once it is filled (its address is the next one from the start on). *)
Definition create_value (m : mem) (src : source) (ref auto merge : bool) : outcome (mem * nat * nat) :=
  match src with
  | Vector b cnt =>
      let! l := items_at m b cnt in
      if ref then
        if merge then
          (* H *)
          let q := length m in
          let! m := merge_ref (m ++ [Some (Raw (zeros (total l)))]) auto q b 0 0 l in
          Ok (m ++ [Some (Val {| vsz := cnt; fvec := true; fref := true; fauto := auto; fint := true;
                                 vptr := Some (b, 0); varr := []; vraw := [] |})], length m, 24)
        else
          (* G *)
          Ok (m ++ [Some (Val {| vsz := cnt; fvec := true; fref := true; fauto := auto; fint := false;
                                 vptr := Some (b, 0); varr := []; vraw := [] |})], length m, 24)
      else if merge then
        (* F *)
        let! area := copy_merge m (zeros (total l)) 0 l in
        Ok (m ++ [Some (Val {| vsz := total l; fvec := false; fref := false; fauto := auto; fint := true;
                               vptr := None; varr := []; vraw := area |})], length m, 16 + total l)
      else
        (* E *)
        let! (arr, area) := copy_array m (length m) (16 * cnt) (zeros (total l)) (16 * cnt) l in
        Ok (m ++ [Some (Val {| vsz := cnt; fvec := true; fref := false; fauto := auto; fint := true;
                               vptr := None; varr := arr; vraw := area |})], length m, 16 + 16 * cnt + total l)
  | Scalar p len =>
      if ref then
        (* C, D *)
        Ok (m ++ [Some (Val {| vsz := len; fvec := false; fref := true; fauto := auto; fint := false;
                               vptr := p; varr := []; vraw := [] |})], length m, 24)
      else
        (* A, B *)
        let! d := mread m p len in
        let! area := splice (zeros len) 0 d in
        Ok (m ++ [Some (Val {| vsz := len; fvec := false; fref := false; fauto := auto; fint := true;
                               vptr := None; varr := []; vraw := area |})], length m, 16 + len)
  end.

(* What a caller of sid_kvs_get sees (src/resource/kvs.c:110-116, 664-677): flags and size, and the bytes behind the address
   returned, as an array of struct iovec or as plain bytes. *)
Fixpoint read_items (m : mem) (l : list iovec) : outcome (list bytes) :=
  match l with
  | [] => Ok []
  | (base, len) :: t => let! d := mread m base len in let! ds := read_items m t in Ok (d :: ds)
  end.
Definition observe (m : mem) (v : nat) : outcome (bool * bool * bool * nat * list bytes) :=
  match block m v with
  | Some (Val x) =>
      let! ds := (if fvec x then
                    let! l := (if fref x then match vptr x with Some (b, O) => items_at m b (vsz x) | _ => UB end
                               else if vsz x <=? length (varr x) then Ok (firstn (vsz x) (varr x)) else UB) in
                    read_items m l
                  else
                    let! d := mread m (if fref x then vptr x else Some (v, 16 * length (varr x))) (vsz x) in Ok [d]) in
      Ok (fvec x, fref x, fauto x, vsz x, ds)
  | _ => UB
  end.

(* _destroy_kv_store_value, src/resource/kvs.c:118-162 *)
Fixpoint free_items (m : mem) (l : list iovec) : outcome mem :=
  match l with [] => Ok m | (base, _) :: t => let! m := mfree m base in free_items m t end.
Definition destroy_value (m : mem) (v : nat) : outcome mem :=
  match block m v with
  | Some (Val x) =>
      let! m :=
        (if fref x then
           if fvec x then
             match vptr x with
             | Some (b, O) =>
                 if fint x then
                   (* H *)
                   match block m b with
                   | Some (Iov ((base, _) :: _)) =>
                       let! m := mfree m base in
                       if fauto x then mfree m (Some (b, O))
                       else match block m b with
                            | Some (Iov arr) =>
                                if vsz x <=? length arr
                                then Ok (list_set m b (Some (Iov (repeat (None, 0) (vsz x) ++ skipn (vsz x) arr)))) else UB
                            | _ => UB
                            end
                   | _ => UB
                   end
                 else if fauto x then
                   (* G *)
                   let! l := items_at m b (vsz x) in
                   let! m := free_items m l in
                   mfree m (Some (b, O))
                 else Ok m
             | _ => UB
             end
           else if fauto x then mfree m (vptr x) else Ok m
         else Ok m) in
      mfree m (Some (v, O))
  | _ => UB
  end.
