(* Property C25: values come back byte for byte in every storage form; with the release of their memory (C30). *)
From Verif Require Import Base KvsValue_Model KvsValue_Spec KvsValue_Proofs.
Local Open Scope nat_scope.

(* C25: for readable input, and malloc'ed input where REF and AUTOFREE hand it over, the value is made and reads back with the
   bytes, item boundaries, size and flags supplied; nothing of the caller's changes, except that a vector merged by reference
   is rewritten in place and its items released when handed over; a copy does not depend on the caller's memory any more. *)
Theorem kvs_value_roundtrip : forall m src ref auto merge ds,
  supplied m src = Ok ds -> (ref && auto = true -> malloced m src) ->
  exists m' v sz, create_value m src ref auto merge = Ok (m', v, sz) /\
    observe m' v = Ok (stored_form src ref auto merge ds) /\ length m <= v < length m' /\
    (forall x, x < length m -> merged_in_place src ref merge <> Some x ->
      block m' x = if (match merged_in_place src ref merge with Some _ => auto | None => false end) && existsb (Nat.eqb x) (handed_over m src)
                   then None else block m x) /\
    (ref = false -> forall m2, block m2 v = block m' v -> observe m2 v = observe m' v).
Proof. exact value_roundtrip. Qed.
Print Assumptions kvs_value_roundtrip.
Definition value_ex : list (option blk) :=
  [Some (Raw (B "ab")); Some (Raw (B "cde")); Some (Iov [(Some (0, 0), 2); (None, 0); (Some (1, 0), 3)])].
Example kvs_value_roundtrip_ex :
  supplied value_ex (Vector 2 3) = Ok [B "ab"; []; B "cde"] /\ malloced value_ex (Vector 2 3) /\
  stored_form (Vector 2 3) false true true [B "ab"; []; B "cde"] = (false, false, true, 5, [B "abcde"]) /\
  supplied value_ex (Scalar (Some (1, 1)) 2) = Ok [B "de"].
Proof.
  repeat split; try reflexivity.
  - repeat (apply NoDup_cons; [cbn; intuition discriminate|]). constructor.
  - repeat (apply Forall_cons || apply Forall_nil); cbn; auto; split; auto; discriminate.
Qed.

(* C30, for one value: releasing it frees exactly what belongs to the store (its own blocks, and with REF and AUTOFREE what was
   handed over), each block once. *)
Theorem kvs_value_release_partial : forall m src ref auto merge ds,
  supplied m src = Ok ds -> (ref && auto = true -> malloced m src) -> has_items src ->
  exists m' v sz m2, create_value m src ref auto merge = Ok (m', v, sz) /\ destroy_value m' v = Ok m2 /\
    (forall x, length m <= x -> block m2 x = None) /\
    (forall x, x < length m -> merged_in_place src ref merge <> Some x ->
      block m2 x = if ref && auto && existsb (Nat.eqb x) (handed_over m src) then None else block m x) /\
    (forall b cnt l, src = Vector b cnt -> merged_in_place src ref merge = Some b -> block m b = Some (Iov l) ->
      block m2 b = if auto then None else Some (Iov (repeat (None, 0) cnt ++ skipn cnt l))).
Proof. exact value_release. Qed.
Print Assumptions kvs_value_release_partial.
Example kvs_value_release_partial_ex : has_items (Vector 2 3) /\ merged_in_place (Vector 2 3) true true = Some 2 /\
  handed_over value_ex (Vector 2 3) = [2; 0; 1].
Proof. repeat split. unfold has_items. lia. Qed.

(* What is missing is false: a vector without items, merged by reference, is accepted, and its release looks at a first item
   that is not there. *)
Theorem kvs_value_empty_vector_refuted : exists m b m' v sz,
  block m b = Some (Iov []) /\ create_value m (Vector b 0) true false true = Ok (m', v, sz) /\ destroy_value m' v = UB.
Proof. exists [Some (Iov [])], 0. eexists _, _, _. repeat split; reflexivity. Qed.
Print Assumptions kvs_value_empty_vector_refuted.
