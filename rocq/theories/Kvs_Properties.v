(* Properties C24 and C26 to C30: the key-value store. *)
From Verif Require Import Base Hash_Model Bptree_Model Kvs_Model Kvs_Spec Kvs_All Kvs_Rollback.
Local Open Scope N_scope.

Definition txt (s : bytes) : content := {| cvec := false; cref := false; cauto := false; citems := [s] |}.
Definition set (k v : bytes) : kop := KSet k (txt v) false None None.
Definition keep_first : setcb := fun old new => (match old with Some _ => 0 | None => 1 end, new, false)%Z.
Definition never : unsetcb := fun _ => 0%Z.

(* C24 and C28: outside transactions the store is a map, above the hash table and above the B+ tree; an archive key receives
   the previous value if there was one. *)
Theorem kvs_map : forall hint order ops,
  hint <= 2 ^ 31 -> (4 <= order)%nat -> Forall data_op ops ->
  let P := fun rs get => rs = answers (fun _ => None) ops /\ forall k, get k = Ok (reads (plain_run (fun _ => None) ops) k) in
  on_hash hint ops P /\ on_bptree order ops P.
Proof. exact kvs_plain. Qed.
Print Assumptions kvs_map.
Definition plain_ex : list kop :=
  [set (B "a") (B "1"); set (B "  a") (B "2"); KSet (B "a") (txt (B "3")) false (Some (B "old")) (Some keep_first);
   KSet (B "b") (txt (B "4")) false (Some (B "old")) (Some keep_first); KGet (B "old");
   KSet (B "a") (txt (B "5")) false (Some (B "old")) None; KUnset (B "b") (Some (B "gone")) None; KUnset (B "a") None (Some never);
   KGet (B "	a"); KGet (B "b"); KGet (B "old"); KGet (B "gone"); KGet (B "")].
Example kvs_map_ex : Forall data_op plain_ex /\
  skipn 8 (answers (fun _ => None) plain_ex) =
  [(0%Z, Some (txt (B "5"))); ((- ENOENT)%Z, None); (0%Z, Some (txt (B "2"))); (0%Z, Some (txt (B "4"))); ((- EINVAL)%Z, None)].
Proof.
  split; [|vm_compute; reflexivity]. unfold plain_ex. repeat (apply Forall_cons; [cbn; try exact Logic.I; try (intros o; left; reflexivity)|]). constructor.
Qed.

(* C24: which keys are the same entry. *)
Theorem kvs_same_entry : forall hint order ops k c k',
  hint <= 2 ^ 31 -> (4 <= order)%nat -> Forall data_op ops -> k <> [] -> k' <> [] ->
  let P (_ : list kres) get :=
    ((exists w w' t, Forall white w /\ Forall white w' /\ k = w ++ t /\ k' = w' ++ t) ->
      get k' = Ok (Some c, 0%Z)) /\
    (~ (exists w w' t, Forall white w /\ Forall white w' /\ k = w ++ t /\ k' = w' ++ t) ->
      get k' = Ok (reads (plain_run (fun _ => None) ops) k')) in
  on_hash hint (ops ++ [KSet k c false None None]) P /\ on_bptree order (ops ++ [KSet k c false None None]) P.
Proof. exact same_entry_lemma. Qed.
Print Assumptions kvs_same_entry.
Example kvs_same_entry_ex : exists w w' t, Forall white w /\ Forall white w' /\ B " 	x y" = w ++ t /\ B "x y" = w' ++ t.
Proof. exists (B " 	"), [], (B "x y"). split; [repeat (apply Forall_cons; [unfold white; vm_compute; tauto|]); apply Forall_nil|]. split; [constructor|]. split; reflexivity. Qed.

(* C28: the archive key, when it is another entry. *)
Theorem kvs_archive : forall hint order ops o k a,
  hint <= 2 ^ 31 -> (4 <= order)%nat -> Forall data_op (ops ++ [o]) -> k <> [] -> a <> [] ->
  canonicalize_key a <> canonicalize_key k ->
  let m := plain_run (fun _ => None) ops in
  let old := m (canonicalize_key k) in
  forall b : bool,
  (exists c mg fn, o = KSet k c mg (Some a) fn /\ (b = true <-> accepted fn old (as_stored c mg) <> None)) \/
  (exists fn, o = KUnset k (Some a) fn /\ (b = true <-> allows fn old = true)) ->
  let P (_ : list kres) get :=
    get a = match b, old with true, Some v => Ok (Some v, 0%Z) | _, _ => Ok (reads m a) end in
  on_hash hint (ops ++ [o]) P /\ on_bptree order (ops ++ [o]) P.
Proof. exact archive_lemma. Qed.
Print Assumptions kvs_archive.
Example kvs_archive_ex :
  let m := plain_run (fun _ => None) [set (B "a") (B "1")] in
  m (B "a") = Some (txt (B "1")) /\ accepted None (m (B "a")) (txt (B "2")) <> None.
Proof. split; [reflexivity|discriminate]. Qed.

(* C26 and C27: whole transactions.  Committed, they are their operations one by one as long as no key is touched again after
   it was unset; rolled back, they leave no trace as long as no key is written twice and no unset archives. *)
Theorem kvs_transactions_partial : forall hint order segs,
  hint <= 2 ^ 31 -> (4 <= order)%nat -> Forall seg_ok segs ->
  let P := fun rs get => Forall2 code_ok (history segs) rs /\ forall k, get k = Ok (reads (seg_run segs) k) in
  on_hash hint (history segs) P /\ on_bptree order (history segs) P.
Proof. exact kvs_segs. Qed.
Print Assumptions kvs_transactions_partial.
Definition trans_ex : list seg :=
  [Plain (set (B "a") (B "1"));
   Trans [set (B "a") (B "2"); set (B "a") (B "3"); KSet (B "a") (txt (B "4")) false (Some (B "old")) None; set (B "b") (B "5"); KUnset (B "b") None None] false;
   Trans [KSet (B "a") (txt (B "6")) false (Some (B "old")) None; KUnset (B "a") None None; set (B "c") (B "7")] true].
Example kvs_transactions_partial_ex : Forall seg_ok trans_ex /\
  map (reads (seg_run trans_ex)) [B "a"; B "b"; B "old"; B "c"] =
  [(Some (txt (B "4")), 0%Z); (None, (- ENOENT)%Z); (Some (txt (B "3")), 0%Z); (None, (- ENOENT)%Z)].
Proof.
  split; [|vm_compute; reflexivity]. unfold trans_ex, set. repeat (apply Forall_cons || apply Forall_nil); cbn [seg_ok data_op]; auto.
  all: split; [repeat (apply Forall_cons || apply Forall_nil); cbn; auto|].
  all: cbn; repeat match goal with
    | |- _ /\ _ => split | |- ~ _ => intro | |- forall _, _ => intro
    | H : Some _ = Some _ |- _ => injection H as <- | H : _ \/ _ |- _ => destruct H | H : False |- _ => destruct H end; cbn in *; auto; try discriminate.
  all: intuition discriminate.
Qed.

(* C26 is false: a key unset and then set in one transaction is gone after the commit. *)
Theorem kvs_commit_refuted : exists (segs : list seg) k, segs = [Trans [set k (B "1"); KUnset k None None; set k (B "2")] false] /\
  on_bptree 4 (history segs) (fun _ get => get k = Ok (None, (- ENOENT)%Z)) /\ reads (seg_run segs) k = (Some (txt (B "2")), 0%Z).
Proof.
  exists [Trans [set (B "k") (B "1"); KUnset (B "k") None None; set (B "k") (B "2")] false], (B "k"). split; [reflexivity|].
  split; [apply bget_on; vm_compute; reflexivity|vm_compute; reflexivity].
Qed.
Print Assumptions kvs_commit_refuted.

(* ... and unsetting a key that was unset in the same transaction, now with an archive key, archives freed memory. *)
Theorem kvs_commit_archive_refuted : exists (ops : list kop) k a,
  ops = [set k (B "0"); KBegin; KUnset k None None; KUnset k (Some a) None; KEnd false] /\
  on_bptree 4 ops (fun _ get => get a = UB).
Proof.
  exists [set (B "k") (B "0"); KBegin; KUnset (B "k") None None; KUnset (B "k") (Some (B "a")) None; KEnd false], (B "k"), (B "a"). split; [reflexivity|].
  apply bget_on; vm_compute; reflexivity.
Qed.
Print Assumptions kvs_commit_archive_refuted.

(* C27 is false: after two sets of one key the rollback leaves the first of them; ... *)
Theorem kvs_rollback_refuted : exists (segs : list seg) k,
  segs = [Plain (set k (B "0")); Trans [set k (B "1"); set k (B "2")] true] /\
  on_bptree 4 (history segs) (fun _ get => get k = Ok (Some (txt (B "1")), 0%Z)) /\ reads (seg_run segs) k = (Some (txt (B "0")), 0%Z).
Proof.
  exists [Plain (set (B "k") (B "0")); Trans [set (B "k") (B "1"); set (B "k") (B "2")] true], (B "k"). split; [reflexivity|].
  split; [apply bget_on; vm_compute; reflexivity|vm_compute; reflexivity].
Qed.
Print Assumptions kvs_rollback_refuted.

(* ... the archive copy of an unset is not rolled back, the archive key loses its own value; ... *)
Theorem kvs_rollback_archive_refuted : exists (segs : list seg) k a,
  segs = [Plain (set k (B "0")); Plain (set a (B "1")); Trans [KUnset k (Some a) None] true] /\
  on_bptree 4 (history segs) (fun _ get => get a = Ok (Some (txt (B "0")), 0%Z)) /\ reads (seg_run segs) a = (Some (txt (B "1")), 0%Z).
Proof.
  exists [Plain (set (B "k") (B "0")); Plain (set (B "a") (B "1")); Trans [KUnset (B "k") (Some (B "a")) None] true], (B "k"), (B "a"). split; [reflexivity|].
  split; [apply bget_on; vm_compute; reflexivity|vm_compute; reflexivity].
Qed.
Print Assumptions kvs_rollback_archive_refuted.

(* ... and two archiving sets of one key make the rollback itself undefined. *)
Theorem kvs_rollback_twice_refuted : exists (ops : list kop) k a,
  ops = [set k (B "0"); KBegin; KSet k (txt (B "1")) false (Some a) None; KSet k (txt (B "2")) false (Some a) None; KEnd true] /\
  exists b, bptree_create 4 = Some b /\ krun bptree_backend (Build_kv bptree_backend b [] None None) ops = UB.
Proof.
  eexists _, (B "k"), (B "a"). split; [reflexivity|]. apply ends_ub_on. vm_compute. reflexivity.
Qed.
Print Assumptions kvs_rollback_twice_refuted.

(* C29, over every backend and every history, aliases and callbacks included. *)
Theorem kvs_one_transaction : forall BE b ops s rs,
  krun BE (Build_kv BE b [] None None) ops = Ok (s, rs) ->
  kstep BE s KActive = Ok (s, (if is_open ops then 1%Z else 0%Z, None)) /\
  exists s2, kstep BE s KBegin = Ok (s2, (if is_open ops then (- EBUSY)%Z else 0%Z, None)) /\
    (is_open ops = true -> s2 = s) /\ (forall k, sid_kvs_get BE s2 k = sid_kvs_get BE s k).
Proof. exact (fun BE b ops s rs => one_open BE (Build_kv BE b [] None None) ops s rs eq_refl). Qed.
Print Assumptions kvs_one_transaction.
Example kvs_one_transaction_ex : exists s rs,
  krun spec_backend kempty [set (B "a") (B "1"); KBegin; KBegin; set (B "a") (B "2"); KEnd true; KBegin; KActive] = Ok (s, rs) /\
  map fst rs = [0; 0; - EBUSY; 0; 0; 0; 1]%Z.
Proof. eexists _, _. split; vm_compute; reflexivity. Qed.

(* C30: the same histories followed by destruction of the store (above the specification of records): nothing is freed twice
   or read after it was freed, and nothing stays allocated. *)
Theorem kvs_values_freed_partial : forall segs, Forall seg_ok segs ->
  exists s rs h, krun spec_backend kempty (history segs) = Ok (s, rs) /\ kvs_destroy s = Ok h /\ still_allocated h = [].
Proof. exact kvs_freed. Qed.
Print Assumptions kvs_values_freed_partial.
Example kvs_values_freed_partial_ex : Forall seg_ok trans_ex /\
  match krun spec_backend kempty (history trans_ex) with Ok (s, _) => length (heap s) = 7%nat | UB => False end.
Proof. split; [exact (proj1 kvs_transactions_partial_ex)|]. vm_compute. reflexivity. Qed.

(* C30 is false in general.  A removal decided by a code other than 1 leaks the value; ... *)
Theorem kvs_unset_code_leak_refuted : exists k s rs h,
  krun spec_backend kempty [set k (B "1"); KUnset k None (Some (fun _ => 2%Z))] = Ok (s, rs) /\ kvs_destroy s = Ok h /\
  still_allocated h = [(txt (B "1"), true)].
Proof. exists (B "k"). apply leaves_on; vm_compute; reflexivity. Qed.
Print Assumptions kvs_unset_code_leak_refuted.

(* ... a transaction still open when the store goes leaks the values replaced; ... *)
Theorem kvs_open_leak_refuted : exists k s rs h,
  krun spec_backend kempty [set k (B "1"); KBegin; set k (B "2")] = Ok (s, rs) /\ kvs_destroy s = Ok h /\
  still_allocated h = [(txt (B "1"), true)].
Proof. exists (B "k"). apply leaves_on; vm_compute; reflexivity. Qed.
Print Assumptions kvs_open_leak_refuted.

(* ... forcing an alias over a key that has a record of its own leaks that record's value; ... *)
Theorem kvs_alias_leak_refuted : exists k a s rs h,
  krun spec_backend kempty [set k (B "1"); set a (B "2"); KAlias k a true] = Ok (s, rs) /\ kvs_destroy s = Ok h /\
  still_allocated h = [(txt (B "2"), true)].
Proof. exists (B "k"), (B "a"). apply leaves_on; vm_compute; reflexivity. Qed.
Print Assumptions kvs_alias_leak_refuted.

(* ... unsetting with an archive key a key that has an alias leaves the value under both, and it is freed twice; ... *)
Theorem kvs_alias_archive_refuted : exists k a c s rs,
  krun spec_backend kempty [set k (B "1"); KAlias k a false; KUnset k (Some c) None] = Ok (s, rs) /\ kvs_destroy s = UB.
Proof. exists (B "k"), (B "a"), (B "c"). apply leaves_ub; vm_compute; reflexivity. Qed.
Print Assumptions kvs_alias_archive_refuted.

(* ... a rollback frees the value of a key set in the transaction although an alias still leads to it; ... *)
Theorem kvs_alias_rollback_refuted : exists k a,
  on_bptree 4 [KBegin; set k (B "1"); KAlias k a false; KEnd true] (fun _ get => get a = UB).
Proof.
  exists (B "k"), (B "a"). apply bget_on; vm_compute; reflexivity.
Qed.
Print Assumptions kvs_alias_rollback_refuted.

(* ... and two unsets archiving into one key within a transaction leave the first key with freed memory until the commit. *)
Theorem kvs_archive_dangling_refuted : exists k k2 a,
  on_bptree 4 [set k (B "1"); set k2 (B "2"); KBegin; KUnset k (Some a) None; KUnset k2 (Some a) None] (fun _ get => get k = UB).
Proof.
  exists (B "k"), (B "l"), (B "a"). apply bget_on; vm_compute; reflexivity.
Qed.
Print Assumptions kvs_archive_dangling_refuted.
