(* Properties C106 to C108: iterators of the key-value store. *)
From Verif Require Import Base Hash_Model Bptree_Model Bptree_Spec Bptree_Iter Kvs_Model Kvs_Spec KvsValue_Model KvsValue_Spec KvsIter_Model KvsIter_Spec KvsIter_Proofs KvsIter_Size.
From Coq Require Import Sorted.
Local Open Scope N_scope.

(* C106: the callers' loop sees, after any calls and transactions, every key asked for exactly once with its value, on the B+ tree
   in the order of keys; afterwards the iterator is as new; the store is as before. *)
Theorem kvs_iter_exact_partial : forall hint order segs b,
  hint <= 2 ^ 31 -> (4 <= order)%nat -> Forall seg_ok segs -> solid (seg_run segs) -> begins (seg_run segs) b ->
  hash_store hint (history segs) (fun s => exists l, covers (seg_run segs) (fun _ => True) l /\ hash_entries s = N.of_nat (length l) mod 2 ^ 32 /\
    forall fuel, (length l < fuel)%nat -> walk hiter_next fuel s (hiter_create b) [] = Ok (Some (l, s, hiter_create b))) /\
  bptree_store order (history segs) (fun s => exists l, covers (seg_run segs) (within b) l /\ in_order l /\
    forall fuel, (length l < fuel)%nat -> walk biter_next fuel s (biter_create b) [] = Ok (Some (l, s, biter_create b))).
Proof. exact iter_exact. Qed.
Print Assumptions kvs_iter_exact_partial.
Theorem kvs_iter_count : forall order segs, (4 <= order)%nat -> Forall seg_ok segs ->
  bptree_store order (history segs) (fun s => exists ks, NoDup ks /\ (forall k, In k ks <-> seg_run segs k <> None) /\
    bptree_entries s = N.of_nat (length ks) mod 2 ^ 64).
Proof. exact bptree_count. Qed.
Print Assumptions kvs_iter_count.

Definition txt (s : bytes) : content := {| cvec := false; cref := false; cauto := false; citems := [s] |}.
Definition put (k v : bytes) : kop := KSet k (txt v) false None None.
Definition segs_ex : list seg :=
  [Plain (put (B "b1") (B "1")); Plain (put (B "  a") (B "2")); Plain (put (B "b2") (B "3")); Plain (put (B "c") (B "4"));
   Trans [put (B "c") (B "5"); put (B "d") (B "6")] true; Trans [put (B "b1") (B "7"); put (B "b3") (B "8")] false; Plain (KUnset (B "b2") None None)].
Definition on_tree {A} (order : nat) (ops : list kop) (f : kv bptree_backend -> outcome A) : outcome A :=
  match bptree_create order with
  | Some t => let! (s, _) := krun bptree_backend (Build_kv bptree_backend t [] None None) ops in f s
  | None => UB
  end.
Definition on_table {A} (hint : N) (ops : list kop) (f : kv hash_backend -> outcome A) : outcome A :=
  match hash_create hint with
  | Some t => let! (s, _) := krun hash_backend (Build_kv hash_backend t [] None None) ops in f s
  | None => UB
  end.
Definition visited {BE I} (next : kv BE -> I -> outcome (I * (option bytes * option content))) (it : I) (edits : list (list kop)) (s : kv BE) : outcome (list (bytes * content)) :=
  match walk next 9 s it edits with Ok (Some (l, _, _)) => Ok l | _ => UB end.
Example kvs_iter_exact_partial_ex :
  Forall seg_ok segs_ex /\ begins (seg_run segs_ex) (Range (Some (B "b1")) (Some (B "bz"))) /\
  on_tree 4 (history segs_ex) (visited biter_next (biter_create (Range (Some (B "b1")) (Some (B "bz")))) []) = Ok [(B "b1", txt (B "7")); (B "b3", txt (B "8"))] /\
  on_tree 4 (history segs_ex) (visited biter_next (biter_create (Prefix (B "b"))) []) = Ok [(B "b1", txt (B "7")); (B "b3", txt (B "8"))] /\
  on_tree 4 (history segs_ex) (fun s => Ok (bptree_entries s)) = Ok 4 /\
  on_table 16 (history segs_ex) (visited hiter_next (hiter_create (Range None None)) []) =
    Ok [(B "b1", txt (B "7")); (B "b3", txt (B "8")); (B "a", txt (B "2")); (B "c", txt (B "4"))].
Proof.
  split; [|split; [vm_compute; discriminate|vm_compute; repeat split; reflexivity]].
  unfold segs_ex. repeat apply Forall_cons; try apply Forall_nil; cbn; try exact Logic.I; repeat split; repeat constructor; cbn; auto; try discriminate.
  intros [H|[]]; discriminate.
Qed.

(* What is missing is false. *)
(* Bounds and prefixes are ignored above the hash table. *)
Theorem kvs_iter_bounds_refuted : exists segs b l, Forall seg_ok segs /\ begins (seg_run segs) b /\
  on_table 16 (history segs) (visited hiter_next (hiter_create b) []) = Ok l /\ exists k c, In (k, c) l /\ ~ within b k.
Proof.
  exists segs_ex, (Prefix (B "b")). eexists. split; [apply kvs_iter_exact_partial_ex|]. split; [exact Logic.I|]. split; [vm_compute; reflexivity|].
  exists (B "a"), (txt (B "2")). split; [right; right; left; reflexivity|]. intros [r E]. discriminate.
Qed.
Print Assumptions kvs_iter_bounds_refuted.
(* A first key that is not stored: the iteration starts with smaller keys. *)
Theorem kvs_iter_first_refuted : exists segs b l, Forall seg_ok segs /\
  on_tree 4 (history segs) (visited biter_next (biter_create b) []) = Ok l /\ exists k c, In (k, c) l /\ ~ within b k.
Proof.
  exists segs_ex, (Range (Some (B "b")) None). eexists. split; [apply kvs_iter_exact_partial_ex|]. split; [vm_compute; reflexivity|].
  eexists _, _. split; [left; reflexivity|]. intros [E _]. apply Bptree_Iter.leb_le in E. vm_compute in E. discriminate.
Qed.
Print Assumptions kvs_iter_first_refuted.
(* A reference to NULL ends the callers' loop. *)
Theorem kvs_iter_null_refuted : exists ops c, Forall data_op ops /\ plain_run (fun _ => None) ops (B "b") = Some c /\
  on_tree 4 ops (visited biter_next (biter_create (Range None None)) []) = Ok [].
Proof.
  exists [KSet (B "a") {| cvec := false; cref := true; cauto := false; citems := [] |} false None None; put (B "b") (B "1")]. eexists.
  split; [repeat constructor|]. split; vm_compute; reflexivity.
Qed.
Print Assumptions kvs_iter_null_refuted.

(* C107: the sizes told of a value are those of the memory allocated for it and of what it refers to. *)
Theorem kvs_iter_sizes : forall m src ref auto merge ds,
  supplied m src = Ok ds -> (ref && auto = true -> malloced m src) ->
  exists m' v sz i di e de, create_value m src ref auto merge = Ok (m', v, sz) /\ current_size m' v = Ok (i, di, e, de) /\
    i = all_bytes (skipn (length m) m') /\ sz = block_bytes (block m' v) /\ (di + de = length (List.concat ds))%nat /\
    de = (if ref && negb (is_vector src && merge) then length (List.concat ds) else 0%nat) /\
    (e = de + (if ref then 16 * count src else 0))%nat.
Proof. exact sizes_lemma. Qed.
Print Assumptions kvs_iter_sizes.
Definition mem_ex : list (option blk) := [Some (Raw (B "ab")); Some (Raw (B "cde")); Some (Iov [(Some (0, 0), 2); (None, 0); (Some (1, 0), 3)])]%nat.
Example kvs_iter_sizes_ex :
  supplied mem_ex (Vector 2 3) = Ok [B "ab"; []; B "cde"] /\
  (let! (m, v, _) := create_value mem_ex (Vector 2 3) true false true in current_size m v) = Ok (29, 5, 48, 0)%nat /\
  (let! (m, v, _) := create_value mem_ex (Vector 2 3) true false false in current_size m v) = Ok (24, 0, 53, 5)%nat /\
  (let! (m, v, _) := create_value mem_ex (Vector 2 3) false false false in current_size m v) = Ok (69, 5, 0, 0)%nat /\
  (let! (m, v, _) := create_value mem_ex (Vector 2 3) false false true in current_size m v) = Ok (21, 5, 0, 0)%nat /\
  (let! (m, v, _) := create_value mem_ex (Scalar (Some (1, 1)%nat) 2) true false false in current_size m v) = Ok (24, 0, 2, 2)%nat.
Proof. repeat split; vm_compute; reflexivity. Qed.

(* C108: values may be replaced during an iteration. *)
Theorem kvs_iter_edits_partial : forall hint order segs b,
  hint <= 2 ^ 31 -> (4 <= order)%nat -> Forall seg_ok segs -> solid (seg_run segs) -> begins (seg_run segs) b ->
  hash_store hint (history segs) (fun s => exists ks, NoDup ks /\ (forall k, In k ks <-> seg_run segs k <> None) /\
    visits hiter_next s (seg_run segs) (hiter_create b) (hiter_create b) ks) /\
  bptree_store order (history segs) (fun s => exists ks, StronglySorted str_lt ks /\ (forall k, In k ks <-> seg_run segs k <> None /\ within b k) /\
    visits biter_next s (seg_run segs) (biter_create b) (biter_create b) ks).
Proof. exact iter_edits. Qed.
Print Assumptions kvs_iter_edits_partial.
Definition edits_ex : list (list kop) := [[put (B "b3") (B "x"); KGet (B "a")]; []; [put (B " a") (B "y"); put (B "b3") (B "z")]].
Example kvs_iter_edits_partial_ex :
  Forall (Forall (overwrites (seg_run segs_ex))) edits_ex /\
  on_tree 4 (history segs_ex) (visited biter_next (biter_create (Range None None)) edits_ex) =
    Ok [(B "a", txt (B "2")); (B "b1", txt (B "7")); (B "b3", txt (B "x")); (B "c", txt (B "4"))].
Proof.
  split; [|vm_compute; reflexivity].
  repeat (apply Forall_cons || apply Forall_nil); cbn [overwrites put]; try exact Logic.I; (split; [discriminate|]; split; [vm_compute; discriminate|intros (H & _); discriminate]).
Qed.

(* What is missing is false: removing keys, the current one already, reads freed memory above the hash table and loses keys above
   the B+ tree; adding keys repeats keys there. *)
Theorem kvs_iter_unset_refuted :
  on_table 16 (history segs_ex) (fun s => walk hiter_next 9 s (hiter_create (Range None None)) [[KUnset (B "b1") None None]]) = UB /\
  exists l, on_tree 4 (history segs_ex) (visited biter_next (biter_create (Range None None)) [[KUnset (B "a") None None]]) = Ok l /\
    seg_run segs_ex (B "b1") <> None /\ ~ In (B "b1") (map fst l).
Proof.
  split; [vm_compute; reflexivity|]. eexists. split; [vm_compute; reflexivity|]. split; [vm_compute; discriminate|]. intros H. cbn in H. decompose [or] H; try discriminate; contradiction.
Qed.
Print Assumptions kvs_iter_unset_refuted.
Theorem kvs_iter_add_refuted : exists l,
  on_tree 4 (history segs_ex) (visited biter_next (biter_create (Range None None)) [[put (B "Z") (B "1")]]) = Ok l /\ ~ NoDup (map fst l).
Proof.
  eexists. split; [vm_compute; reflexivity|]. intros H. inversion H as [|? ? N]. apply N. left. reflexivity.
Qed.
Print Assumptions kvs_iter_add_refuted.
