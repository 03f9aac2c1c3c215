From Verif Require Import Base UtilStr_Spec UbrKey_Model UbrDb_Model UbrPerm_Spec UbrPerm_Proofs Lvm_Model Lvm_Spec Lvm_Proofs.
Local Open Scope nat_scope.

(* C97. When the phase starts for a logical volume, the names of volume group, volume and layer from which LVM built the name of the
   device are stored, each as a variable for udev and as a value of the module, and nothing else changes. *)
Theorem lvm_names_stored : forall d u vg lv layer,
  lv_names vg lv layer -> lvm_reads d (devmod_key (uid u) (B "/type/dm") (B "name")) (lvm_name vg lv layer) ->
  (forall k, In k (component_keys u) -> writable d (B "/type/dm/dm_sub/lvm") k) ->
  exists d', lvm_scan_a_init d u = Ok (d', 0%Z) /\ sets (component_records u vg lv layer) d d'.
Proof. exact stored_names_lemma. Qed.
Print Assumptions lvm_names_stored.
(* A name without a separating dash, or without a volume group before it, fails the phase and changes nothing. *)
Theorem lvm_names_refused : forall d u name,
  ~ In NUL name -> lvm_reads d (devmod_key (uid u) (B "/type/dm") (B "name")) name ->
  (exists s, name = quoted s) \/ (exists x r, name = "-"%char :: x :: r /\ x <> "-"%char) ->
  lvm_scan_a_init d u = Ok (d, (-1)%Z).
Proof. exact refused_lemma. Qed.
Print Assumptions lvm_names_refused.
Theorem lvm_no_name : forall d u, lvm_lacks d (devmod_key (uid u) (B "/type/dm") (B "name")) -> lvm_scan_a_init d u = Ok (d, (-1)%Z).
Proof. exact no_name_lemma. Qed.
Print Assumptions lvm_no_name.
(* Whatever the name is, no memory outside of the copy of the name is read or written: the phase fails with no change, or stores the
   names of some volume group and volume, not empty. *)
Theorem lvm_any_name : forall d u name,
  ~ In NUL name -> lvm_reads d (devmod_key (uid u) (B "/type/dm") (B "name")) name ->
  (forall k, In k (component_keys u) -> writable d (B "/type/dm/dm_sub/lvm") k) ->
  lvm_scan_a_init d u = Ok (d, (-1)%Z)
  \/ exists d' vg lv layer, vg <> [] /\ lv <> [] /\ lvm_scan_a_init d u = Ok (d', 0%Z) /\ sets (component_records u vg lv layer) d d'.
Proof. exact any_name_lemma. Qed.
Print Assumptions lvm_any_name.
(* The module takes a device as its own when the UUID starts with LVM-, and the device as one of its parts when its content is a
   physical volume. *)
Theorem lvm_takes_current : forall d u,
  (lvm_lacks d (devmod_key (uid u) (B "/type/dm") (B "uuid")) -> lvm_match_current d u = Ok false)
  /\ (forall v, lvm_reads d (devmod_key (uid u) (B "/type/dm") (B "uuid")) v -> exists b, lvm_match_current d u = Ok b /\ (b = true <-> exists r, v = B "LVM-" ++ r)).
Proof. exact current_lemma. Qed.
Print Assumptions lvm_takes_current.
Theorem lvm_takes_next : forall d u,
  (lvm_lacks d (udev_var (number u) (B "ID_FS_TYPE")) -> lvm_match_next d u = Ok false)
  /\ (forall v, lvm_reads d (udev_var (number u) (B "ID_FS_TYPE")) v -> exists b, lvm_match_next d u = Ok b /\ (b = true <-> v = B "LVM2_member")).
Proof. exact next_lemma. Qed.
Print Assumptions lvm_takes_next.

(* C98. Of the output of pvscan the last value of every key is stored as a value of the module; lines that are no pair change nothing
   and do not stop it; no other record changes. *)
Theorem lvm_output_stored : forall d u l, Forall line_of l -> own_values d u ->
  exists d', stdout_recv d u true (output_of l) = Ok (d', 0%Z) /\ stored_values u l d d' /\ own_values d' u.
Proof. exact output_lemma. Qed.
Print Assumptions lvm_output_stored.
(* A line that does not fit the buffer, and a key the database does not accept, end it: the lines before are stored, none after. *)
Theorem lvm_output_long_line : forall d u l s rest, Forall line_of l -> ~ In (ascii_of_nat 10) s -> 2048 <= length s -> own_values d u ->
  exists d', stdout_recv d u true (output_of l ++ s ++ ascii_of_nat 10 :: rest) = Ok (d', (- ENOBUFS)%Z) /\ stored_values u l d d'.
Proof. exact long_lemma. Qed.
Print Assumptions lvm_output_long_line.
Theorem lvm_output_bad_key : forall d u l s k v rest,
  Forall line_of l -> ~ In (ascii_of_nat 10) s -> ~ In NUL s -> length s <= 2047 -> pair_text s k v -> hd_error k = Some "#"%char -> own_values d u ->
  exists d', stdout_recv d u true (output_of l ++ s ++ ascii_of_nat 10 :: rest) = Ok (d', (-121)%Z) /\ stored_values u l d d'.
Proof. exact bad_key_lemma. Qed.
Print Assumptions lvm_output_bad_key.
(* C98 does not hold for a line with a key but no value: memory behind the line is read that was never written. *)
Theorem lvm_output_valueless_refuted : forall d u l s rest,
  Forall line_of l -> ~ In (ascii_of_nat 10) s -> ~ In NUL s -> length s <= 2047 -> valueless s -> own_values d u ->
  stdout_recv d u true (output_of l ++ s ++ ascii_of_nat 10 :: rest) = UB.
Proof. exact valueless_lemma. Qed.
Print Assumptions lvm_output_valueless_refuted.
(* The output of other commands is never stored. *)
Theorem lvm_output_ignored : forall d u data, exists l, stdout_recv d u false data = l /\ (l = Ok (d, 0%Z) \/ l = Ok (d, (- EINVAL)%Z)).
Proof. exact ignored_output. Qed.
Print Assumptions lvm_output_ignored.
(* When pvscan names a volume group that is complete, vgchange is run for that group; if it could be run it is not run again until the
   next time pvscan names a group, else the name is kept. *)
Theorem lvm_activates_complete_group : forall d u name pvs vgc l code vg,
  Forall line_of l -> own_values d u -> (forall a, pvs a = (code, output_of l)) ->
  last_value (B "LVM_VG_NAME_COMPLETE") l = Some vg -> let args := B "vgchange -aay --autoactivation event " ++ vg in
  exists d1, lvm_scan_next d u name pvs = Ok (d1, if (code <? 0)%Z then (-1)%Z else 0%Z)
    /\ ((vgc args < 0)%Z -> lvm_scan_action_next d1 u vgc = Ok (d1, vgc args, Some args))
    /\ ((0 <= vgc args)%Z -> exists d2, lvm_scan_action_next d1 u vgc = Ok (d2, 0%Z, Some args)
         /\ forall vgc', lvm_scan_action_next d2 u vgc' = Ok (d2, 0%Z, None)).
Proof. exact activation_lemma. Qed.
Print Assumptions lvm_activates_complete_group.
(* Without that line and without such a value from before nothing is run. *)
Theorem lvm_activates_nothing_else : forall d u name pvs vgc l code,
  Forall line_of l -> own_values d u -> (forall a, pvs a = (code, output_of l)) ->
  last_value (B "LVM_VG_NAME_COMPLETE") l = None -> lvm_lacks d (value_key u (B "LVM_VG_NAME_COMPLETE")) ->
  exists d1, lvm_scan_next d u name pvs = Ok (d1, if (code <? 0)%Z then (-1)%Z else 0%Z) /\ lvm_scan_action_next d1 u vgc = Ok (d1, 0%Z, None).
Proof. exact no_activation_lemma. Qed.
Print Assumptions lvm_activates_nothing_else.

(* The volume root of the group my-vg, as device 253:0 with the id U *)
Definition lvm_u : ucmd := Ucmd (DevCtx (Some (B "253_0")) (Some (B "U"))) 7 3.
Definition lvm_dm (v : bytes) : rec := Rec 7 66 3 (B "/type/dm") [v ++ [NUL]].
Definition lvm_d (name : bytes) : db :=
  Db (put (put (put (fun _ => None) (devmod_key (B "U") (B "/type/dm") (B "name")) (Some (lvm_dm name)))
     (devmod_key (B "U") (B "/type/dm") (B "uuid")) (Some (lvm_dm (B "LVM-abc")))) (udev_var (B "253_0") (B "ID_FS_TYPE")) (Some (Rec 7 230 3 (B "/") [B "LVM2_member" ++ [NUL]]))) (fun _ => false).
Ltac lvm_read o := exists o; split; [reflexivity|]; split; [intros H; cbn in H; decompose [or] H; try discriminate; contradiction|]; split;
  [apply may_read_match; [intros H; cbn in H; decompose [or] H; try discriminate; contradiction|intros H; cbn in H; decompose [or] H; try discriminate; contradiction|vm_compute; reflexivity]|
   split; [intros H; cbn in H; decompose [or] H; try discriminate; contradiction|reflexivity]].
Example lvm_case : lv_names (B "my-vg") (B "root") (Some (B "t-pool")) /\ lvm_name (B "my-vg") (B "root") (Some (B "t-pool")) = B "my--vg-root-t--pool"
  /\ lvm_reads (lvm_d (B "my--vg-root-t--pool")) (devmod_key (uid lvm_u) (B "/type/dm") (B "name")) (B "my--vg-root-t--pool")
  /\ lvm_reads (lvm_d (B "x")) (devmod_key (uid lvm_u) (B "/type/dm") (B "uuid")) (B "LVM-abc")
  /\ lvm_reads (lvm_d (B "x")) (udev_var (number lvm_u) (B "ID_FS_TYPE")) (B "LVM2_member")
  /\ (forall k, In k (component_keys lvm_u) -> writable (lvm_d (B "my--vg-root-t--pool")) (B "/type/dm/dm_sub/lvm") k).
Proof.
  split; [|split; [reflexivity|]].
  - unfold lv_names, no_dash_first. do 2 (split; [intros H; cbn in H; decompose [or] H; try discriminate; contradiction|]). do 4 (split; [discriminate|]).
    split; [intros H; cbn in H; decompose [or] H; try discriminate; contradiction|]. split; discriminate.
  - split; [lvm_read (lvm_dm (B "my--vg-root-t--pool"))|]. split; [lvm_read (lvm_dm (B "LVM-abc"))|]. split; [lvm_read (Rec 7 230 3 (B "/") [B "LVM2_member" ++ [NUL]])|].
    intros k Hk o Ho. unfold component_keys in Hk. cbn [map app In] in Hk. decompose [or] Hk; try contradiction; subst k; vm_compute in Ho; discriminate.
Qed.
Example lvm_case_run : match lvm_scan_a_init (lvm_d (B "my--vg-root-t--pool")) lvm_u with
  | Ok (d, r) => r = 0%Z /\ recs d (B "::U:253_0:::DM_VG_NAME") = Some (Rec 7 230 3 (B "/type/dm/dm_sub/lvm") [B "my-vg" ++ [NUL]])
      /\ recs d (B ":USR:X:U:M:/type/dm/dm_sub/lvm:lv_layer") = Some (Rec 7 226 3 (B "/type/dm/dm_sub/lvm") [B "t-pool" ++ [NUL]])
  | UB => False end.
Proof. vm_compute. repeat split. Qed.
Example lvm_case_refused : lvm_scan_a_init (lvm_d (B "my--vg")) lvm_u = Ok (lvm_d (B "my--vg"), (-1)%Z) /\ B "my--vg" = quoted (B "my-vg")
  /\ lvm_scan_a_init (lvm_d (B "-root")) lvm_u = Ok (lvm_d (B "-root"), (-1)%Z) /\ lvm_lacks (lvm_d (B "x")) (devmod_key (B "V") (B "/type/dm") (B "name")).
Proof. split; [reflexivity|]. split; [reflexivity|]. split; [reflexivity|]. intros o H. discriminate H. Qed.
Definition lvm_lines : list (bytes * option (bytes * bytes)) :=
  [(B "  WARNING: something", None); (B "LVM_VG_NAME_COMPLETE='vg0'", Some (B "LVM_VG_NAME_COMPLETE", B "vg0")); ([], None);
   (B "LVM_VG_NAME_COMPLETE=vg1", Some (B "LVM_VG_NAME_COMPLETE", B "vg1"))].
Example lvm_output_case : last_value (B "LVM_VG_NAME_COMPLETE") lvm_lines = Some (B "vg1") /\ own_values (lvm_d (B "x")) lvm_u
  /\ match stdout_recv (lvm_d (B "x")) lvm_u true (output_of lvm_lines) with
     | Ok (d, r) => r = 0%Z /\ recs d (value_key lvm_u (B "LVM_VG_NAME_COMPLETE")) = Some (Rec 7 0 3 (B "/type/dm/dm_sub/lvm") [B "vg1" ++ [NUL]])
     | UB => False end
  /\ stdout_recv (lvm_d (B "x")) lvm_u true (B "A=" ++ [ascii_of_nat 10]) = UB /\ valueless (B "A=").
Proof.
  split; [reflexivity|]. split; [|split; [vm_compute; split; reflexivity|split; [vm_compute; reflexivity|]]].
  - intros k o H. change (uid lvm_u) with (B "U") in H. cbn in H. unfold put in H. cbn in H. discriminate H.
  - exists [], (B "A"), [], []. repeat (split; [intros c []|]). split; [|reflexivity]. split; [discriminate|]. intros c [<-|[]]. split; [|discriminate].
    intros X. cbn in X. decompose [or] X; try discriminate; contradiction.
Qed.
Example lvm_lines_case : Forall line_of lvm_lines.
Proof.
  assert (No : forall s, ~ In "="%char s -> ~ valueless s /\ forall k v, ~ pair_text s k v).
  { intros s H. split.
    - intros (a & k & b & c & _ & _ & _ & _ & ->). apply H. rewrite !in_app_iff. right. right. right. left. left. reflexivity.
    - intros k v (a & b & c & e & _ & _ & _ & _ & _ & [(_ & ->)|(q & _ & _ & ->)]); apply H; rewrite !in_app_iff; right; right; right; left; left; reflexivity. }
  assert (Sp : spaces []) by (intros c []).
  assert (Ky : key_word (B "LVM_VG_NAME_COMPLETE")).
  { split; [discriminate|]. intros c Hc. cbn in Hc. decompose [or] Hc; try contradiction; subst c; (split; [intros X; cbn in X; decompose [or] X; try discriminate; contradiction|discriminate]). }
  unfold lvm_lines. repeat (apply Forall_cons; [split; [intros X; cbn in X; decompose [or] X; try discriminate; contradiction|split; [intros X; cbn in X; decompose [or] X; try discriminate; contradiction|split; [cbn; lia|cbn [fst snd]]]]|]); [..|apply Forall_nil].
  - apply No. intros X. cbn in X. decompose [or] X; try discriminate; contradiction.
  - split; [|split; discriminate]. exists [], [], [], []. do 4 (split; [exact Sp|]). split; [exact Ky|]. right. exists (ascii_of_nat 39). split; [right; reflexivity|]. split; [|reflexivity].
    intros X. cbn in X. decompose [or] X; try discriminate; contradiction.
  - apply No. intros [].
  - split; [|split; discriminate]. exists [], [], [], []. do 4 (split; [exact Sp|]). split; [exact Ky|]. left. split; [|reflexivity]. split; [discriminate|].
    intros c Hc. cbn in Hc. decompose [or] Hc; try contradiction; subst c; (split; [intros X; cbn in X; decompose [or] X; try discriminate; contradiction|intros [X|X]; discriminate X]).
Qed.
