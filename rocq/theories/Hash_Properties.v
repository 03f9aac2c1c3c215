(* C06-C09: hash table. *)
From Verif Require Import Base Hash_Model Hash_Spec Hash_Proofs.
Local Open Scope N_scope.

Definition ex_ops : list hop :=
  [HAdd (B "a") 10 3; HAdd (B "b") 11 4; HAdd (B "a") 12 3;
   HUpdate (B "c") (fun old => match old with None => (HWRITE, (13, 5)) | Some _ => (HSKIP, (0, 0)) end);
   HDel (B "b")].

(* C06: data pointer and length together, whenever re-adds keep the length. *)
Theorem hash_is_map : forall memeq hint ops,
  hint <= 2 ^ 31 -> forallb unique_op ops = true -> adds_keep_len (fun _ => None) ops = true ->
  exists t0, hash_create hint = Some t0 /\
  forall k, hash_lookup (hrun memeq t0 ops) k = match im_run ops k with Some e => e | None => (0, 0) end.
Proof. exact hash_map_lemma. Qed.
Print Assumptions hash_is_map.

Example hash_is_map_ex :
  5 <= 2 ^ 31 /\ forallb unique_op ex_ops = true /\ adds_keep_len (fun _ => None) ex_ops = true /\
  im_run ex_ops (B "a") = Some (12, 3) /\ im_run ex_ops (B "b") = None /\ im_run ex_ops (B "c") = Some (13, 5).
Proof. vm_compute. repeat split; discriminate. Qed.

(* C06: the data pointer is always the one stored last, even when re-adds change the length
   (callbacks that do not look at the old length). *)
Theorem hash_is_map_pointer : forall memeq hint ops,
  hint <= 2 ^ 31 -> forallb unique_op ops = true -> Forall len_blind ops ->
  exists t0, hash_create hint = Some t0 /\
  forall k, fst (hash_lookup (hrun memeq t0 ops) k) = match im_run ops k with Some e => fst e | None => 0 end.
Proof. exact hash_map_ptr_lemma. Qed.
Print Assumptions hash_is_map_pointer.

Example hash_is_map_pointer_ex :
  let ops := [HAdd (B "a") 10 3; HAdd (B "a") 12 7; HUpdate (B "a") (fun _ => (HSKIP, (0, 0)))] in
  forallb unique_op ops = true /\ Forall len_blind ops /\ im_run ops (B "a") = Some (12, 7).
Proof. split; [reflexivity|]. split; [repeat constructor|reflexivity]. Qed.

(* C06/C09: every history, including multi-value operations, refines "each key has a list of entries". *)
Theorem hash_refines_multimap : forall memeq hint ops,
  hint <= 2 ^ 31 ->
  exists t0, hash_create hint = Some t0 /\
  let t := hrun memeq t0 ops in
  let m := mm_run memeq ops in
  (forall k, hash_lookup t k = match m k with [] => (0, 0) | e :: _ => e end) /\
  (forall s, hash_lookup_with_count t s =
     match m (s ++ [NUL]) with [] => (0, 0, 0) | e :: r => (e, N.of_nat (List.length (e :: r))) end) /\
  (forall k d l, hash_lookup_with_data memeq t k d l =
     match List.find (same_data memeq d l) (m k) with Some e => fst e | None => 0 end).
Proof. exact hash_refines_lemma. Qed.
Print Assumptions hash_refines_multimap.

Example hash_refines_multimap_ex :
  let ops := [HAddMulti (B "k") 1 4; HAddMulti (B "k") 2 4; HAddMulti (B "k") 3 4; HDelData (B "k") 2 4; HDel (B "k")] in
  mm_run (fun p q _ => p =? q) ops (B "k") = [(1, 4)].
Proof. reflexivity. Qed.

(* C07: walking visits exactly the stored entries, once each, and the count is right (it is a 32-bit counter). *)
Theorem hash_walk_exact : forall memeq hint ops fuel,
  hint <= 2 ^ 31 ->
  exists t0, hash_create hint = Some t0 /\
  let t := hrun memeq t0 ops in
  let m := mm_run memeq ops in
  (List.length (hash_iter t) <= fuel)%nat ->
  hash_walk fuel t (hash_get_first t) = hash_iter t /\
  hash_get_entry_count t = N.of_nat (List.length (hash_iter t)) mod 2 ^ 32 /\
  forall k, map (fun n => (ndata n, ndata_len n)) (List.filter (fun n => bytes_eqb k (nkey n)) (hash_iter t)) = m k.
Proof. exact hash_walk_lemma. Qed.
Print Assumptions hash_walk_exact.

Example hash_walk_exact_ex : exists t0, hash_create 1 = Some t0 /\
  List.length (hash_walk 100 (hrun (fun _ _ _ => false) t0 ex_ops) (hash_get_first (hrun (fun _ _ _ => false) t0 ex_ops))) = 2%nat.
Proof. eexists; split; [reflexivity|]. vm_compute. reflexivity. Qed.

(* C08 as stated fails: hash_add on a present key stores the new pointer with the old length. *)
Theorem hash_data_len_together_refuted :
  exists t0 k d1 l1 d2 l2, hash_create 16 = Some t0 /\
  let t := hrun (fun _ _ _ => false) t0 [HAdd k d1 l1; HAdd k d2 l2] in
  hash_lookup t k = (d2, l1) /\ l1 <> l2.
Proof.
  exact (ex_intro _ _ (ex_intro _ (B "k") (ex_intro _ 1 (ex_intro _ 100 (ex_intro _ 2 (ex_intro _ 1
    (conj eq_refl (conj eq_refl (fun H : 100 = 1 => match H with eq_refl => I end))))))))).
Qed.
Print Assumptions hash_data_len_together_refuted.

(* C08 as far as it holds: when re-adds keep the length (or go through hash_update) a lookup gives the pointer and the length that
   were stored together last. *)
Theorem hash_data_len_together_partial : forall memeq hint ops k d l,
  hint <= 2 ^ 31 -> forallb unique_op ops = true -> adds_keep_len (fun _ => None) ops = true -> im_run ops k = Some (d, l) ->
  exists t0, hash_create hint = Some t0 /\ hash_lookup (hrun memeq t0 ops) k = (d, l).
Proof.
  exact (fun memeq hint ops k d l H U A E => match hash_map_lemma memeq hint ops H U A with
    ex_intro _ t0 (conj C L) => ex_intro _ t0 (conj C (eq_trans (L k) (f_equal (fun o => match o with Some e => e | None => (0, 0) end) E))) end).
Qed.
Print Assumptions hash_data_len_together_partial.
Example hash_data_len_together_ex : im_run ex_ops (B "c") = Some (13, 5)
  /\ match hash_create 5 with Some t0 => hash_lookup (hrun (fun _ _ _ => false) t0 ex_ops) (B "c") = (13, 5) | None => False end.
Proof. vm_compute. split; reflexivity. Qed.

(* hash_create never returns when the size hint exceeds 2^31 (the 32-bit size doubles to 0). *)
Theorem hash_create_hangs : forall hint, 2 ^ 31 < hint -> forall fuel, round_up fuel 16 hint = None.
Proof. exact hash_hang_lemma. Qed.
Print Assumptions hash_create_hangs.

Example hash_create_hangs_ex : 2 ^ 31 < 2 ^ 31 + 1.
Proof. reflexivity. Qed.
