From Verif Require Import Base CmnMem_Model CmnMem_Spec CmnMem_Proofs.
Local Open Scope nat_scope.

(* A block module with 3 keys; a type module with 2 keys and modules of its own, one of which fails after 1 key *)
Definition blkid_like : modt := Modt 3 None S_none.
Definition dm_like : modt := Modt 2 None (S_dir (D_files (M_cons (Modt 1 None S_none) (M_cons (Modt 4 (Some 1) S_none) M_nil)))).
Definition block_dir : dirt := D_files (M_cons blkid_like (M_cons (Modt 0 None S_none) M_nil)).
Definition type_dir : dirt := D_files (M_cons dm_like (M_cons (Modt 0 None S_none) M_nil)).
Definition start : heap := Heap [4; 3; 2; 1; 0] 5 [].
Definition start_common : common := Common 0 1 2 3 4.

(* C129 *)
Theorem common_memory : forall fails block type,
  (type = D_error -> block <> D_error -> dir_keyed block = true -> fails <> None) -> common_life fails block type = Ok [].
Proof. exact common_life_ok. Qed.
Print Assumptions common_memory.
Example common_memory_case :
  common_life None block_dir type_dir = Ok [] /\ common_life (Some C_type) block_dir D_error = Ok [] /\ common_life None D_error type_dir = Ok []
  /\ common_life None D_missing D_error = Ok [].
Proof. sp; vm_compute; reflexivity. Qed.
Example common_memory_made : match init_common None block_dir type_dir with Ok (h, Some _) => (length (live h), length (held h)) = (11, 7) | _ => False end.
Proof. vm_compute. reflexivity. Qed.
Theorem type_directory_refuted : forall block, dir_keyed block = true -> common_life None block D_error = UB.
Proof. exact common_life_ub. Qed.
Print Assumptions type_directory_refuted.
Example type_directory_case : dir_keyed block_dir = true /\ dir_keyed (D_files (M_cons (Modt 0 None S_none) M_nil)) = false.
Proof. split; reflexivity. Qed.
Theorem module_memory : forall m h v b reg, sound h v b reg -> mod_clean m = true ->
  exists h1 x h2, init_mod m h v b reg = Ok (h1, Some x) /\ destroy_mod x h1 v b reg = Ok h2 /\ live h2 = live h /\ held h2 = held h.
Proof. exact module_round_trip. Qed.
Print Assumptions module_memory.
Example module_memory_case : sound start start_common true 3 /\ sound start start_common false 4 /\ mod_clean blkid_like = true /\ mod_clean dm_like = false
  /\ mod_clean (Modt 2 None (S_dir (D_files (M_cons (Modt 1 None S_none) M_nil)))) = true.
Proof. unfold sound. cbn. sp; auto 8; try discriminate; repeat constructor. Qed.
Theorem modules_loaded : forall m h v b reg, sound h v b reg -> exists h' x, init_mod m h v b reg = Ok (h', x) /\ (x <> None <-> loads m = true).
Proof. exact loaded_iff. Qed.
Print Assumptions modules_loaded.
Example modules_loaded_case : loads dm_like = true /\ loads (Modt 2 None (S_dir D_missing)) = false /\ loads (Modt 2 (Some 0) S_none) = false.
Proof. sp; reflexivity. Qed.
Theorem failed_keys_refuted : forall k n s h v b reg, sound h v b reg -> n <= k ->
  exists h', init_mod (Modt k (Some n) s) h v b reg = Ok (h', None) /\ live h' = live h /\ held h' = repeat (next h) n ++ held h.
Proof. exact failed_keys. Qed.
Print Assumptions failed_keys_refuted.
Theorem no_submodules_refuted : forall k d h v b reg, sound h v b reg -> (d = D_missing \/ d = D_error \/ d = D_files M_nil) ->
  exists h', init_mod (Modt k None (S_dir d)) h v b reg = Ok (h', None) /\ live h' = live h /\ held h' = repeat (next h) k ++ held h.
Proof. exact without_modules. Qed.
Print Assumptions no_submodules_refuted.
Example no_submodules_case : init_mod (Modt 2 None (S_dir D_missing)) start start_common false 4 = Ok (Heap [4; 3; 2; 1; 0] 7 [5; 5], None).
Proof. vm_compute. reflexivity. Qed.
