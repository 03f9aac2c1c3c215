From Verif Require Import Base UbrKey_Model UbrKey_Spec UbrDb_Model UbrPerm_Spec Lvm_Model Lvm_Spec Blkid_Model Blkid_Spec Blkid_Proofs.
Local Open Scope nat_scope.

(* C113: a scan stores what blkid found.  Of each variable the last value found, in the text its name asks for; nothing else changes *)
Theorem values_stored : forall l t d u opened p fs r, (0 <= opened)%Z -> (0 <= r)%Z -> probe_superblocks p = (r, fs) -> Forall (good_value l t) fs -> may_set d u -> exists d', blkid_scan_next l d u opened p = Ok (d', 0%Z)
  /\ (forall s h k, In (s, h, k) variables -> recs d' (udev_var (number u) (B k)) =
        match last_named (B s) fs with Some v => Some (blk_record u 230 (text t h v ++ [NUL])) | None => recs d (udev_var (number u) (B k)) end)
  /\ (forall rest, partition_name rest -> recs d' (udev_var (number u) (B "ID_PART_ENTRY_" ++ rest)) =
        match last_named (B "PART_ENTRY_" ++ rest) fs with Some v => Some (blk_record u 230 (v ++ [NUL])) | None => recs d (udev_var (number u) (B "ID_PART_ENTRY_" ++ rest)) end)
  /\ (forall x, x <> next_key u -> (forall k, blkid_variable k -> x <> udev_var (number u) k) -> recs d' x = recs d x).
Proof. exact scan_lemma. Qed.
Print Assumptions values_stored.
Theorem failed_probe_stores_nothing : forall l d u opened p, (opened < 0)%Z \/ (fst (probe_superblocks p) < 0)%Z -> exists r, (r < 0)%Z /\ blkid_scan_next l d u opened p = Ok (d, r).
Proof. exact failed_scan. Qed.
Print Assumptions failed_probe_stores_nothing.
Theorem small_disks : forall p, p_stat p = 0%Z -> probe_superblocks p = p_safe p \/
  (p_char p = false /\ (p_size p <= 1474560)%N /\ p_whole p = true /\ ((fst (p_full p) < 0)%Z /\ probe_superblocks p = p_full p \/ (exists v j, In (Some (B "PTTYPE", v, j)) (snd (p_full p))) /\ probe_superblocks p = (0%Z, snd (p_full p)))).
Proof. exact small_lemma. Qed.
Print Assumptions small_disks.
(* refuted: the encoded UUID is stored and can be read as the other variables can.  It is kept from all other modules, *)
Theorem uuid_readable_refuted : forall l t d u v junk, good_value l t (Some (B "UUID", v, junk)) -> may_set d u -> exists d', add_property l d u (B "UUID") v junk = Ok d'
  /\ forall w, no_nul w -> w <> B "/block/blkid" -> w <> B "/" -> kv_get d' u w NS_UDEV (B "ID_FS_UUID") 0 None None = (Some ([v ++ [NUL]], 230%N), 0%Z)
     /\ kv_get d' u w NS_UDEV (B "ID_FS_UUID_ENC") 0 None None = (None, (- EPERM)%Z).
Proof. exact uuid_unread. Qed.
Print Assumptions uuid_readable_refuted.
(* it has bytes of memory that was never set, *)
Theorem uuid_text_refuted : forall l t d u v, makes l t v -> no_nul v -> (forall buf, length buf = 256 -> l_safe l v buf = safe_text t v ++ NUL :: skipn (length (safe_text t v) + 1) buf) ->
  (forall buf, length buf = 256 -> l_encode l v buf = enc_text t v ++ NUL :: skipn (length (enc_text t v) + 1) buf) ->
  length (safe_text t v) < 223 -> length (enc_text t v) < 223 -> may_set d u ->
  exists j1 j2 d1 d2, length j1 = 256 /\ length j2 = 256 /\ add_property l d u (B "UUID") v j1 = Ok d1 /\ add_property l d u (B "UUID") v j2 = Ok d2
    /\ recs d1 (udev_var (number u) (B "ID_FS_UUID_ENC")) <> recs d2 (udev_var (number u) (B "ID_FS_UUID_ENC")).
Proof. exact uuid_depends. Qed.
Print Assumptions uuid_text_refuted.
(* and a long one has no end *)
Theorem uuid_end_refuted : forall l t d u v junk, good_value l t (Some (B "UUID", v, junk)) -> may_set d u -> 224 <= length (enc_text t v) ->
  exists d', add_property l d u (B "UUID") v junk = Ok d' /\ str_get d' u (B "/block/blkid") NS_UDEV (B "ID_FS_UUID_ENC") None = UB.
Proof. exact uuid_cut. Qed.
Print Assumptions uuid_end_refuted.
(* refuted: a value that cannot be encoded is left out *)
Theorem encoding_failure_refuted : forall l d u v junk k s, In (s, Encoded, k) variables -> no_nul v -> may_set d u -> length junk = 256 -> fills (l_safe l) v v -> (forall buf, length buf = 256 -> no_nul (l_encode l v buf)) ->
  add_property l d u (B s) v junk = UB.
Proof. exact encode_fails. Qed.
Print Assumptions encoding_failure_refuted.

(* C114: the next module is that of the type found *)
Theorem next_module_of_type : forall l t d u opened p fs r v m, (0 <= opened)%Z -> (0 <= r)%Z -> probe_superblocks p = (r, fs) -> Forall (good_value l t) fs -> may_set d u -> last_named (B "TYPE") fs = Some v -> handles m v ->
  exists d', blkid_scan_next l d u opened p = Ok (d', 0%Z) /\ next_mod d' u = Ok (Some m).
Proof. exact next_lemma. Qed.
Print Assumptions next_module_of_type.
(* refuted: a device without a known type has no next module.  It keeps that of an earlier scan *)
Theorem next_module_gone_refuted : forall l t d u opened p fs r, (0 <= opened)%Z -> (0 <= r)%Z -> probe_superblocks p = (r, fs) -> Forall (good_value l t) fs -> may_set d u -> (forall v junk, In (Some (B "TYPE", v, junk)) fs -> unknown v) ->
  exists d', blkid_scan_next l d u opened p = Ok (d', 0%Z) /\ next_mod d' u = next_mod d u.
Proof. exact stale_lemma. Qed.
Print Assumptions next_module_gone_refuted.
(* the names of both are reserved from init to exit *)
Theorem names_reserved : forall d gen, (forall n k o, reserves n k -> recs d (reservation_key n k) = Some o -> r_owner o = B "/block/blkid") ->
  exists d', blkid_init d gen = Ok (d', 0%Z) /\ (forall n k, reserves n k -> held d' n k) /\ (forall x, (forall n k, reserves n k -> x <> reservation_key n k) -> recs d' x = recs d x).
Proof. exact init_all. Qed.
Print Assumptions names_reserved.
Theorem names_released : forall d gen gen', (forall n k, reserves n k -> recs d (reservation_key n k) = None) -> exists d1 d2, blkid_init d gen = Ok (d1, 0%Z) /\ blkid_exit d1 gen' = Ok (d2, 0%Z) /\ forall x, recs d2 x = recs d x.
Proof. exact exit_all. Qed.
Print Assumptions names_released.

(* A library that copies up to 255 bytes, and a device with an LVM physical volume *)
Definition bk_copy (v buf : bytes) : bytes := firstn 255 v ++ NUL :: skipn (length (firstn 255 v) + 1) buf.
Definition bk_lib : lib := Lib bk_copy bk_copy.
Definition bk_texts : texts := Texts (firstn 255) (firstn 255).
Definition bk_junk : bytes := repeat "x"%char 256.
Definition bk_found : list found := [Some (B "UUID", B "a-b", bk_junk); None; Some (B "TYPE", B "LVM2_member", bk_junk); Some (B "PART_ENTRY_UUID", B "77", bk_junk); Some (B "OTHER", B "0", bk_junk)].
Definition bk_prober : prober := Prober 0 false 1000000000 true (0%Z, []) (0%Z, bk_found).
Definition bk_none : db := Db (fun _ => None) (fun _ => false).
Definition bk_dev : ucmd := Ucmd (DevCtx (Some (B "8_16")) (Some (B "d1"))) 12 3.
Example bk_fills : forall v, no_nul v -> fills bk_copy v (firstn 255 v).
Proof.
  intros v H. split; [intros I; apply H; rewrite <- (firstn_skipn 255 v); apply in_or_app; left; exact I|]. intros buf L. eexists. split; [reflexivity|].
  unfold bk_copy. rewrite app_length. cbn [length]. rewrite skipn_length, L, firstn_length. lia.
Qed.
Example bk_good : Forall (good_value bk_lib bk_texts) bk_found /\ may_set bk_none bk_dev /\ probe_superblocks bk_prober = (0%Z, bk_found).
Proof.
  assert (N : forall s, forallb (fun c => negb (Ascii.eqb NUL c)) (B s) = true -> no_nul (B s)) by (intros s F I; rewrite forallb_forall in F; apply F in I; rewrite Ascii.eqb_refl in I; discriminate).
  assert (V : forall a b, forallb (fun c => negb (Ascii.eqb NUL c)) (B a) = true -> forallb (fun c => negb (Ascii.eqb NUL c)) (B b) = true -> good_value bk_lib bk_texts (Some (B a, B b, bk_junk))).
  { intros a b Fa Fb. split; [apply N, Fa|]. split; [apply N, Fb|]. split; [apply repeat_length|]. split; apply bk_fills, N, Fb. }
  split; [|split; [split; [intros k o H|intros o H]; discriminate H|reflexivity]]. repeat (constructor; [try (apply V; reflexivity); exact I|]). constructor.
Qed.
Example bk_scan : match blkid_scan_next bk_lib bk_none bk_dev 0 bk_prober with
  | Ok (d, r) => r = 0%Z /\ next_mod d bk_dev = Ok (Some (B "dm")) /\ recs d (B "::U:8_16:::ID_FS_TYPE") = Some (blk_record bk_dev 230 (B "LVM2_member" ++ [NUL]))
      /\ recs d (B "::U:8_16:::ID_PART_ENTRY_UUID") = Some (blk_record bk_dev 230 (B "77" ++ [NUL]))
      /\ recs d (B "::U:8_16:::ID_FS_UUID_ENC") = Some (blk_record bk_dev 6 (B "a-b" ++ NUL :: repeat "x"%char 220))
      /\ match blkid_scan_next bk_lib d bk_dev 0 (Prober 0 false 1000000000 true (0%Z, []) (1%Z, [])) with Ok (d', _) => next_mod d' bk_dev = Ok (Some (B "dm")) | UB => False end
  | UB => False
  end.
Proof. vm_compute. auto 10. Qed.
Example bk_reserve : exists d, blkid_init bk_none 1 = Ok (d, 0%Z) /\ held d NS_UDEV (B "ID_FS_TYPE") /\ held d NS_DEVICE (B "SID_NEXT_MOD").
Proof.
  destruct (names_reserved bk_none 1) as (d & E & H & _); [intros n k o _ X; discriminate X|]. exists d. split; [exact E|]. split; apply H; [left; split; [reflexivity|left; exists "TYPE"%string, Plain, "ID_FS_TYPE"%string; split; [left; reflexivity|reflexivity]]|right; auto].
Qed.
