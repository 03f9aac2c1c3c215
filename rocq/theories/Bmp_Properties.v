(* C01, C02: bitmap. *)
From Verif Require Import Base Bmp_Model Bmp_Spec Bmp_Proofs.
Local Open Scope N_scope.

(* C01 and the in-range part of C02: for every size, fill and history, the run never touches memory outside
   the bitmap, every query answers the last operation on that position, the count is the number of set
   positions, and the return codes are 0 / -ERANGE. *)
Theorem bmp_history : forall n inv ops,
  0 < n -> n <= 2 ^ 37 ->
  exists b0 b rs, bmp_create n inv = inl b0 /\ bmp_run b0 ops = Ok (b, rs) /\
    bmp_get_bit_count b = n /\
    (forall p, p < n -> bmp_bit_is_set b p = Ok (bits_after inv (rev ops) p, None)) /\
    bmp_get_bit_set_count b = count_below n (bits_after inv (rev ops)) /\
    rs = map (fun o => if op_pos o <? n then 0%Z else (- ERANGE)%Z) ops.
Proof. exact bmp_history_lemma. Qed.
Print Assumptions bmp_history.

Example bmp_history_ex : 0 < 33 /\ 33 <= 2 ^ 37 /\
  count_below 33 (bits_after false (rev [BSet 31; BSet 32; BSet 33; BSet 31; BUnset 32])) = 1.
Proof. vm_compute. repeat split; discriminate. Qed.

(* C02: out-of-range positions change nothing, for any bitmap whatsoever. *)
Theorem bmp_out_of_range : forall b p,
  bit_count b <= p ->
  bmp_set_bit b p = Ok (b, (- ERANGE)%Z) /\ bmp_unset_bit b p = Ok (b, (- ERANGE)%Z) /\
  bmp_bit_is_set b p = Ok (false, Some (- ERANGE)%Z).
Proof. exact bmp_out_of_range_lemma. Qed.
Print Assumptions bmp_out_of_range.

Example bmp_out_of_range_ex : exists b, bmp_create 32 true = inl b /\ bit_count b <= 32.
Proof. eexists; split; [reflexivity|]. vm_compute. discriminate. Qed.

Theorem bmp_zero_refused : forall inv, bmp_create 0 inv = inr (- EINVAL)%Z.
Proof. exact (fun _ => eq_refl). Qed.
Print Assumptions bmp_zero_refused.

(* The bound 2^37 of bmp_history is needed: with more bits, setting one bit sets another (src/internal/bmp.c:78
   truncates the block number to [unsigned]). *)
Theorem bmp_history_beyond_2_37_refuted :
  exists n p q b0 b r, p < n /\ q < n /\ p <> q /\
    bmp_create n false = inl b0 /\ bmp_set_bit b0 p = Ok (b, r) /\
    bmp_bit_is_set b0 q = Ok (false, None) /\ bmp_bit_is_set b q = Ok (true, None).
Proof. exact bmp_large_lemma. Qed.
Print Assumptions bmp_history_beyond_2_37_refuted.
