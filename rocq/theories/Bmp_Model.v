(* Model of src/internal/bmp.c: fixed-size bitmap with a cached number of set bits. *)
From Verif Require Import Base.
Local Open Scope N_scope.

(* struct bmp, src/internal/bmp.c:16-20.  [mem] is the flexible array of 32-bit blocks. *)
Record bmp := { bit_count : N; bit_set_count : N; mem : list N }.

(* BITS_PER_BLOCK = sizeof(unsigned) * CHAR_BIT = 32, src/internal/bmp.c:22-23 (unsigned is 4 bytes on the
   supported ABIs). *)
Definition BITS_PER_BLOCK : N := 32.

(* _log2n_recursive, src/internal/bmp.c:26-29, on fuel 32 (an unsigned halves to <=1 in at most 31 steps). *)
Fixpoint log2n_recursive (fuel : nat) (n : N) : N :=
  match fuel with
  | O => 0
  | S f => if 1 <? n then log2n_recursive f (n / 2) + 1 else 0
  end.

(* BLOCK_SHIFT as initialised by the constructor _init_bmp, src/internal/bmp.c:24,31-34. *)
Definition BLOCK_SHIFT : N := log2n_recursive 32 BITS_PER_BLOCK.

(* bmp_create, src/internal/bmp.c:36-66.  Returns the bitmap or the error code.  malloc is assumed to succeed. *)
Definition bmp_create (bits : N) (invert : bool) : bmp + Z :=
  if bits =? 0 then inr (- EINVAL)%Z
  else
    let blocks := (bits - 1) / BITS_PER_BLOCK + 1 in
    inl {| bit_count := bits;
           bit_set_count := if invert then bits else 0;
           mem := repeat (if invert then 2 ^ 32 - 1 else 0) (N.to_nat blocks) |}.

(* _get_coord, src/internal/bmp.c:74-83.  [*block] is an [unsigned], so the shifted position is truncated to
   32 bits; [1 << 31] is taken as the bit pattern 0x80000000 (what every supported compiler produces). *)
Definition get_coord (b : bmp) (bit_pos : N) : (N * N) + Z :=
  if bit_count b <=? bit_pos then inr (- ERANGE)%Z
  else inl (wrap32 (N.shiftr bit_pos BLOCK_SHIFT), N.shiftl 1 (N.land bit_pos (BITS_PER_BLOCK - 1))).

(* bmp_set_bit, src/internal/bmp.c:85-99.  Access outside [mem] is undefined behaviour. *)
Definition bmp_set_bit (b : bmp) (bit_pos : N) : outcome (bmp * Z) :=
  match get_coord b bit_pos with
  | inr r => Ok (b, r)
  | inl (block, bit) =>
      match nth_error (mem b) (N.to_nat block) with
      | None => UB
      | Some w =>
          if N.land w bit =? 0
          then Ok ({| bit_count := bit_count b;
                      bit_set_count := wrap64 (bit_set_count b + 1);
                      mem := list_set (mem b) (N.to_nat block) (N.lor w bit) |}, 0%Z)
          else Ok (b, 0%Z)
      end
  end.

(* bmp_unset_bit, src/internal/bmp.c:101-115.  [bit_set_count--] wraps below zero. *)
Definition bmp_unset_bit (b : bmp) (bit_pos : N) : outcome (bmp * Z) :=
  match get_coord b bit_pos with
  | inr r => Ok (b, r)
  | inl (block, bit) =>
      match nth_error (mem b) (N.to_nat block) with
      | None => UB
      | Some w =>
          if N.land w bit =? 0
          then Ok (b, 0%Z)
          else Ok ({| bit_count := bit_count b;
                      bit_set_count := wrap64 (bit_set_count b + (2 ^ 64 - 1));
                      mem := list_set (mem b) (N.to_nat block) (N.ldiff w bit) |}, 0%Z)
      end
  end.

(* bmp_bit_is_set, src/internal/bmp.c:117-129.  Second component: the value written to *ret_code, if any
   (nothing is written on success). *)
Definition bmp_bit_is_set (b : bmp) (bit_pos : N) : outcome (bool * option Z) :=
  match get_coord b bit_pos with
  | inr r => Ok (false, Some r)
  | inl (block, bit) =>
      match nth_error (mem b) (N.to_nat block) with
      | None => UB
      | Some w => Ok (negb (N.land w bit =? 0), None)
      end
  end.

(* bmp_get_bit_count / bmp_get_bit_set_count, src/internal/bmp.c:131-139. *)
Definition bmp_get_bit_count (b : bmp) : N := bit_count b.
Definition bmp_get_bit_set_count (b : bmp) : N := bit_set_count b.

(* A caller's history of operations on one bitmap. *)
Inductive bmp_op := BSet (p : N) | BUnset (p : N).

Definition bmp_step (b : bmp) (o : bmp_op) : outcome (bmp * Z) :=
  match o with BSet p => bmp_set_bit b p | BUnset p => bmp_unset_bit b p end.

Fixpoint bmp_run (b : bmp) (ops : list bmp_op) : outcome (bmp * list Z) :=
  match ops with
  | [] => Ok (b, [])
  | o :: t =>
      let! (b1, r) := bmp_step b o in
      let! (b2, rs) := bmp_run b1 t in
      Ok (b2, r :: rs)
  end.
