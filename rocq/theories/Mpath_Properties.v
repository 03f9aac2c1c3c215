From Verif Require Import Base BaseUtil_Model BaseUtil_Spec UbrKey_Model UbrKey_Spec UbrDb_Model UbrPerm_Spec Lvm_Model Lvm_Spec Mpath_Model Mpath_Spec Mpath_Proofs.
Local Open Scope nat_scope.

(* C115: after any scans of a disk, the next one says whether it is claimed: a path that was released is claimed again only when the library
   says so without "if not released before".  The identifier is kept, nothing else changes *)
Theorem path_claims : forall dev rs d u disk r w, history dev rs d -> u_dev u = dev -> answer r -> good_wwid w ->
  exists d', mpath_scan_next d u true 1 disk 0 r (Some w) = Ok (d', if Z.eq_dec r (-1) then (-1)%Z else 0%Z)
  /\ (r <> (-1)%Z -> (claimed (r :: rs) -> recs d' (path_var u) = Some (mp_record u (B "1"))) /\ (~ claimed (r :: rs) -> recs d' (path_var u) = Some (mp_record u (B "0"))))
  /\ (r = (-1)%Z -> recs d' (path_var u) = recs d (path_var u))
  /\ recs d' (wwid_key u) = match w with Some w => Some (mp_record u w) | None => recs d (wwid_key u) end
  /\ (forall x, ~ In x [path_var u; valid_key u; wwid_key u] -> recs d' x = recs d x).
Proof. exact scan_lemma. Qed.
Print Assumptions path_claims.
Theorem refused_scans : forall d u allowed type disk reload r w, allowed = false \/ type = 0 \/ (type <> 2 /\ (reload < 0)%Z) ->
  exists code, mpath_scan_next d u allowed type disk reload r w = Ok (d, code).
Proof. exact refused_lemma. Qed.
Print Assumptions refused_scans.
(* refuted: a scan survives a library that fails before it sets the pointer *)
Theorem pointer_unset_refuted : forall dev rs d u disk r, history dev rs d -> u_dev u = dev -> answer r -> mpath_scan_next d u true 1 disk 0 r None = UB.
Proof. exact unset_lemma. Qed.
Print Assumptions pointer_unset_refuted.

(* C116, refuted: a partition of a claimed disk is claimed.  No scan of a disk stores what its partitions look for *)
Theorem partition_refuted : forall dev rs d u disk r w, history dev rs d -> u_dev u = dev -> answer r -> good_wwid w -> forall devno, recs d (disk_valid devno) = None ->
  exists d', mpath_scan_next d u true 1 disk 0 r (Some w) = Ok (d', if Z.eq_dec r (-1) then (-1)%Z else 0%Z) /\ recs d' (disk_valid devno) = None
  /\ forall u' reload r' w', mpath_scan_next d' u' true 2 (Some devno) reload r' w' = Ok (d', 0%Z).
Proof. exact part_lemma. Qed.
Print Assumptions partition_refuted.
(* with the value it looks for, the partition is claimed *)
Theorem partition_follows_partial : forall d u devno reload r w o s, recs d (disk_valid devno) = Some o -> no_nul (r_owner o) -> may_read o (B "/block/dm_mpath") -> r_data o = [s ++ [NUL]] -> no_nul s -> writable d (B "/block/dm_mpath") (path_var u) ->
  (s = B "1" -> exists d', mpath_scan_next d u true 2 (Some devno) reload r w = Ok (d', 0%Z) /\ sets [(path_var u, mp_record u (B "1"))] d d')
  /\ (In s [[]; B "0"; B "3"] -> mpath_scan_next d u true 2 (Some devno) reload r w = Ok (d, 0%Z)).
Proof. exact part_follows. Qed.
Print Assumptions partition_follows_partial.
(* the argument nompath of the kernel turns all of it off, whatever its value *)
Theorem kernel_argument : forall line c1 c2 ws, line <> [] -> cmdline_words line ws -> (kernel_cmdline_allow line c1 c2 = true <-> ~ turned_off ws).
Proof. exact allow_lemma. Qed.
Print Assumptions kernel_argument.
Theorem kernel_argument_read : forall ev c2 file, file <> [] -> ~ In NUL file -> (forall e, ~ In (Failed e) ev) -> kernel_cmdline_allow [] (inr (ev, file)) c2 = kernel_cmdline_allow (firstn 4096 file) (inr (ev, file)) c2.
Proof. exact reads_lemma. Qed.
Print Assumptions kernel_argument_read.
(* the variable is reserved from init to exit *)
Theorem variable_reserved : forall d gen, (forall o, recs d (reservation_key NS_UDEV (B "DM_MULTIPATH_DEVICE_PATH")) = Some o -> r_owner o = B "/block/dm_mpath") ->
  exists d', mpath_init d gen 0 = Ok (d', true, 0%Z) /\ held d' /\ (forall x, x <> reservation_key NS_UDEV (B "DM_MULTIPATH_DEVICE_PATH") -> recs d' x = recs d x).
Proof. exact init_lemma. Qed.
Print Assumptions variable_reserved.
Theorem variable_released : forall d gen gen', recs d (reservation_key NS_UDEV (B "DM_MULTIPATH_DEVICE_PATH")) = None ->
  exists d1 d2, mpath_init d gen 0 = Ok (d1, true, 0%Z) /\ mpath_exit d1 gen' = Ok (d2, false, 0%Z) /\ forall x, recs d2 x = recs d x.
Proof. exact exit_lemma. Qed.
Print Assumptions variable_released.
Theorem library_missing : forall d gen lib, lib <> 0%Z -> mpath_init d gen lib = Ok (d, false, (-1)%Z).
Proof. exact no_library. Qed.
Print Assumptions library_missing.

(* A disk that is claimed, released, not claimed again, and claimed when the library insists *)
Definition mp_none : db := Db (fun _ => None) (fun _ => false).
Definition mp_dev : devctx := DevCtx (Some (B "8_16")) (Some (B "d1")).
Definition mp_u (n : N) : ucmd := Ucmd mp_dev n 3.
Fixpoint mp_scans (n : N) (d : db) (rs : list Z) : list (option (rec * rec)) :=
  match rs with
  | [] => []
  | r :: rs => match mpath_scan_next d (mp_u n) true 1 None 0 r (Some (Some (B "w7"))) with
               | Ok (d, _) => match recs d (B "::U:8_16:::DM_MULTIPATH_DEVICE_PATH"), recs d (B ":USR:X:d1:M:/block/dm_mpath:WWID") with Some a, Some b => Some (a, b) | _, _ => None end :: mp_scans (n + 1) d rs
               | UB => []
               end
  end.
Example mp_sequence : map (option_map (fun p => r_data (fst p))) (mp_scans 12 mp_none [-1; 1; -1; 1; 0; 1; 2; 1; 3; 1]%Z) =
  None :: map (fun s => Some [B s ++ [NUL]]) ["1"; "1"; "1"; "0"; "0"; "1"; "1"; "0"; "0"]%string.
Proof. vm_compute. reflexivity. Qed.
Example mp_history : exists d, history mp_dev [0; 1]%Z d /\ claimed [1; -1]%Z /\ claimed [1; 2; 0]%Z /\ ~ claimed [1; 0; 1]%Z /\ good_wwid (Some (B "w7")).
Proof.
  assert (S : history mp_dev [] mp_none) by (constructor; intros u _; split; [reflexivity|intros k _ o X; discriminate X]).
  destruct (path_claims mp_dev [] mp_none (mp_u 12) None 1 (Some (B "w7")) S eq_refl) as (d1 & E1 & _); [cbn; auto|cbv; intuition discriminate|].
  assert (H1 : history mp_dev [1%Z] d1) by (apply (H_scan mp_dev [] mp_none (mp_u 12) None 1 (Some (B "w7")) d1 0 S eq_refl); [cbn; auto|cbv; intuition discriminate|exact E1]).
  destruct (path_claims mp_dev _ d1 (mp_u 13) None 0 None H1 eq_refl) as (d2 & E2 & _); [cbn; auto|exact I|].
  exists d2. split; [apply (H_scan mp_dev _ d1 (mp_u 13) None 0 None d2 0 H1 eq_refl); [cbn; auto|exact I|exact E2]|].
  split; [exists [1; -1]%Z, []; split; [reflexivity|]; split; [apply Forall_forall; cbn [In]; lia|left; cbn; auto]|].
  split; [exists [1]%Z, [2; 0]%Z; split; [reflexivity|]; split; [apply Forall_forall; cbn [In]; lia|right; exists [0%Z]; reflexivity]|].
  split; [|cbv; intuition discriminate]. rewrite claimed_maybe. intros [F|C]; [apply Forall_inv in F; discriminate|]. revert C. apply (claimed_no 0%Z); discriminate.
Qed.
(* the partition of a disk that was claimed is not *)
Example mp_partition : match mpath_scan_next mp_none (mp_u 12) true 1 None 0 2 (Some None) with
  | Ok (d, _) => recs d (path_var (mp_u 12)) = Some (mp_record (mp_u 12) (B "1"))
      /\ match mpath_scan_next d (Ucmd (DevCtx (Some (B "8_17")) (Some (B "d2"))) 13 3) true 2 (Some (B "8_16")) 0 0 None with
         | Ok (d, r) => r = 0%Z /\ recs d (B "::U:8_17:::DM_MULTIPATH_DEVICE_PATH") = None | UB => False end
  | UB => False
  end.
Proof. vm_compute. auto. Qed.
Example mp_kernel : cmdline_words (B "quiet nompath=off") [B "quiet"; B "nompath=off"] /\ kernel_cmdline_allow (B "quiet nompath=off") (inl 0%Z) (inl 0%Z) = false
  /\ kernel_cmdline_allow (B "quiet nompath=on") (inl 0%Z) (inl 0%Z) = false /\ kernel_cmdline_allow (B "quiet nompaths") (inl 0%Z) (inl 0%Z) = true.
Proof. vm_compute. auto. Qed.
