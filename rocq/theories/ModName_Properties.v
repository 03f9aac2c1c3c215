(* Property C91: the module of a device is the driver that the kernel lists for its major number *)
From Verif Require Import Base UtilStr_Spec ModName_Model ModName_Spec ModName_Proofs.
Local Open Scope nat_scope.

(* Missing from the full claim: drivers called blkext, for which see the theorems below *)
Theorem driver_looked_up_partial before ds d fuel size m n : good_table before ds -> listed m ds n -> n <> BLKEXT -> 78 <= size ->
  exists s, lookup_mod_name (S fuel) (table before ds) d size m = Ok (Some s) /\ module_name n s.
Proof. exact (lookup_lemma before ds d fuel size m n). Qed.
Print Assumptions driver_looked_up_partial.

Theorem driver_not_listed before ds d fuel size m : good_table before ds -> (forall n, ~ listed m ds n) ->
  lookup_mod_name (S fuel) (table before ds) d size m = Ok None.
Proof. exact (lookup_missing before ds d fuel size m). Qed.
Print Assumptions driver_not_listed.

Theorem driver_name_too_long before ds d fuel size m n : good_table before ds -> listed m ds n -> n <> BLKEXT -> size <= length n ->
  lookup_mod_name (S fuel) (table before ds) d size m = Ok None.
Proof. exact (lookup_long before ds d fuel size m n). Qed.
Print Assumptions driver_name_too_long.

Theorem driver_nvme before ds d fuel size m : good_table before ds -> listed m ds (B "blkext") -> (exists t, dv_name d = B "nvme" ++ t) ->
  dv_type d <> UNKNOWN_TYPE -> 78 <= size -> lookup_mod_name (S fuel) (table before ds) d size m = Ok (Some (B "nvme")).
Proof. exact (lookup_nvme before ds d fuel size m). Qed.
Print Assumptions driver_nvme.

Theorem driver_blkext_disk before ds d fuel size m : good_table before ds -> listed m ds (B "blkext") -> (forall t, dv_name d <> B "nvme" ++ t) ->
  dv_type d <> PARTITION -> lookup_mod_name (S fuel) (table before ds) d size m = Ok None.
Proof. exact (blkext_disk before ds d fuel size m). Qed.
Print Assumptions driver_blkext_disk.

(* A partition with an extended number whose disk has an ordinary driver never gets the module of the disk *)
Theorem partition_takes_driver_of_disk_refuted before ds d fuel size m s m' n : good_table before ds -> listed m ds (B "blkext") ->
  (forall t, dv_name d <> B "nvme" ++ t) -> dv_type d = PARTITION -> dv_disk d = Some s -> disk_major s = Some m' -> listed m' ds n ->
  n <> BLKEXT -> 78 <= size -> lookup_mod_name (S (S fuel)) (table before ds) d size m = Ok None.
Proof. exact (blkext_none_partition before ds d fuel size m s m' n). Qed.
Print Assumptions partition_takes_driver_of_disk_refuted.

(* and if the disk has an extended number as well, the look up never ends, however deep the stack *)
Theorem partition_look_up_ends_refuted before ds d size m s m' : good_table before ds -> listed m ds (B "blkext") ->
  (forall t, dv_name d <> B "nvme" ++ t) -> dv_type d = PARTITION -> dv_disk d = Some s -> disk_major s = Some m' -> listed m' ds (B "blkext") ->
  forall fuel, lookup_mod_name fuel (table before ds) d size m = UB.
Proof. exact (blkext_endless before ds d size m s m'). Qed.
Print Assumptions partition_look_up_ends_refuted.

(* Whatever the file, the result and its NUL fit the buffer, and no piece is longer than the array it is read into *)
Theorem driver_fits fuel file d size m s : lookup_mod_name fuel file d size m = Ok (Some s) -> length s < size.
Proof. exact (lookup_fits fuel file d size m s). Qed.
Print Assumptions driver_fits.

Theorem file_read_in_pieces file : Forall (fun l => length l <= 79) (pieces 79 [] file) /\ List.concat (pieces 79 [] file) = file.
Proof. exact (pieces_long file 79 [] (le_n_S 0 78 (Nat.le_0_l 78)) (le_n 79)). Qed.
Print Assumptions file_read_in_pieces.

Theorem key_without_colons s : length (canonicalize_kv_key s) = length s /\ ~ In ":"%char (canonicalize_kv_key s)
  /\ (~ In ":"%char s -> canonicalize_kv_key s = s).
Proof. exact (kv_key s). Qed.
Print Assumptions key_without_colons.

(* The example: a table as the kernel prints it *)
Definition ex_before : list bytes := [B "Character devices:"; B "  1 mem"; B "252 device-mapper"; []].
Definition ex_drivers : list driver :=
  [Driver 2 (B "8") (B "sd"); Driver 0 (B "252") (B "device-mapper"); Driver 0 (B "259") (B "blkext"); Driver 0 (B "252") (B "other")].
Example ex_table_good : good_table ex_before ex_drivers.
Proof.
  split.
  - repeat (constructor; [split; [cbn; intros H; decompose [or] H; try discriminate; contradiction|split; [cbn; lia|discriminate]]|]). constructor.
  - repeat (constructor; [split; [discriminate|]; split; [intros c H; cbn in H; decompose [or] H; subst; try contradiction; vm_compute; lia|];
      split; [vm_compute; split; reflexivity|]; split; [intros c H; cbn in H; decompose [or] H; subst; try contradiction; vm_compute; lia|vm_compute; lia]|]).
    constructor.
Qed.
Example ex_text : table ex_before ex_drivers = B "Character devices:
  1 mem
252 device-mapper

Block devices:
  8 sd
252 device-mapper
259 blkext
252 other
".
Proof. reflexivity. Qed.
Example ex_listed : listed 252 ex_drivers (B "device-mapper") /\ listed 259 ex_drivers (B "blkext") /\ listed 8 ex_drivers (B "sd").
Proof.
  split; [apply listed_later; [discriminate|]; exact (listed_here 252 (Driver 0 (B "252") (B "device-mapper")) _ eq_refl)|].
  split; [|exact (listed_here 8 (Driver 2 (B "8") (B "sd")) _ eq_refl)].
  apply listed_later; [discriminate|]. apply listed_later; [discriminate|]. exact (listed_here 259 (Driver 0 (B "259") (B "blkext")) _ eq_refl).
Qed.
Example ex_looked_up : lookup_mod_name 2 (table ex_before ex_drivers) (Device DISK (B "dm-0") None) 80 252 = Ok (Some (B "device_mapper")).
Proof. vm_compute. reflexivity. Qed.
Example ex_looked_up_not : lookup_mod_name 2 (table ex_before ex_drivers) (Device DISK (B "x") None) 80 7 = Ok None.
Proof. vm_compute. reflexivity. Qed.
Example ex_short_buffer : lookup_mod_name 2 (table ex_before ex_drivers) (Device DISK (B "dm-0") None) 13 252 = Ok None
  /\ lookup_mod_name 2 (table ex_before ex_drivers) (Device DISK (B "dm-0") None) 14 252 = Ok (Some (B "device_mapper")).
Proof. vm_compute. split; reflexivity. Qed.
Example ex_nvme : lookup_mod_name 2 (table ex_before ex_drivers) (Device PARTITION (B "nvme0n1p1") (Some (B "259:0"))) 80 259 = Ok (Some (B "nvme")).
Proof. vm_compute. reflexivity. Qed.
Example ex_partition : disk_major (B "8:0") = Some 8%Z
  /\ lookup_mod_name 2 (table ex_before ex_drivers) (Device PARTITION (B "sda16") (Some (B "8:0"))) 80 259 = Ok None.
Proof. vm_compute. split; reflexivity. Qed.
Example ex_endless : disk_major (B "259:0") = Some 259%Z
  /\ lookup_mod_name 50 (table ex_before ex_drivers) (Device PARTITION (B "ram0p1") (Some (B "259:0"))) 80 259 = UB.
Proof. vm_compute. split; reflexivity. Qed.
