From Verif Require Import Base UbrKey_Model UbrKey_Spec UbrDb_Model UbrDelta_Model UbrDelta_Spec UbrPerm_Spec UbrScan_Model Lvm_Model Lvm_Spec Dm_Model Dm_Spec DmProps_Model DmProps_Spec DmProps_Proofs.
Local Open Scope nat_scope.

(* C117. Name, UUID and state of suspension that sysfs shows for a device become the module's values and the udev variables; the
   device gets the aliases of its name and UUID; no other record changes but member lists, no other alias or group gains or loses
   a member. *)
Theorem dm_properties_stored : forall d0 l d u fu fn fs bu bn bs uuid name susp,
  well_formed d0 -> fresh d0 -> Forall good_op l -> gsteps d0 l = Ok d -> good_dev u ->
  length bu = 129 -> length bn = 128 -> length bs = 10 ->
  shows 128 fu (Some uuid) -> shows 127 fn (Some name) -> shows 9 fs (Some susp) -> name <> [] -> susp <> [] ->
  (forall k, In k (prop_keys u) -> writable d DM k) ->
  exists d', get_sysfs_props d u fu fn fs bu bn bs = Ok (d', 0%Z)
    /\ (forall k r, In (k, r) (prop_records u uuid name susp) -> recs d' k = Some r)
    /\ (forall x, ~ In x (map fst (prop_records u uuid name susp)) -> no_list x -> recs d' x = recs d x)
    /\ (forall x, has_alias d' (B "name") name x <-> has_alias d (B "name") name x \/ x = this_dev u)
    /\ (uuid <> [] -> forall x, has_alias d' (B "uuid") uuid x <-> has_alias d (B "uuid") uuid x \/ x = this_dev u)
    /\ (forall g x, group_item g -> g <> alias_item DM (B "name") name -> (uuid <> [] -> g <> alias_item DM (B "uuid") uuid) ->
          (In x (members d' (members_of g)) <-> In x (members d (members_of g)))).
Proof. exact props_lemma. Qed.
Print Assumptions dm_properties_stored.
(* If one of the files cannot be read, or shows no name or no state of suspension, the scan fails with the database as before. *)
Theorem dm_properties_missing : forall s u subs fu fn fs bu bn bs ou on os,
  length bu = 129 -> length bn = 128 -> length bs = 10 -> shows 128 fu ou -> shows 127 fn on -> shows 9 fs os ->
  (ou = None \/ on = None \/ on = Some [] \/ os = None \/ os = Some []) ->
  dm_scan_a_init s u subs fu fn fs bu bn bs = Ok (s, None, (-1)%Z).
Proof. exact init_fail. Qed.
Print Assumptions dm_properties_missing.
(* Then the module for LVM takes exactly the devices whose UUID in sysfs starts with LVM-, and finds volume group, volume and layer in
   the name from sysfs; the state of suspension is what the next phase reads. *)
Theorem dm_volume_found : forall d0 l d u fu fn fs bu bn bs uuid vg lv layer susp,
  well_formed d0 -> fresh d0 -> Forall good_op l -> gsteps d0 l = Ok d -> good_dev u ->
  length bu = 129 -> length bn = 128 -> length bs = 10 ->
  shows 128 fu (Some uuid) -> shows 127 fn (Some (lvm_name vg lv layer)) -> shows 9 fs (Some susp) -> susp <> [] ->
  (forall k, In k (prop_keys u) -> writable d DM k) ->
  lv_names vg lv layer -> (forall k, In k (component_keys u) -> writable d LVM k) ->
  exists d', get_sysfs_props d u fu fn fs bu bn bs = Ok (d', 0%Z)
    /\ (exists b, lvm_match_current d' u = Ok b /\ (b = true <-> exists r, uuid = B "LVM-" ++ r))
    /\ (exists d2, lvm_scan_a_init d' u = Ok (d2, 0%Z) /\ sets (component_records u vg lv layer) d' d2)
    /\ reads_text d' DM (suspended_var u) susp.
Proof. exact volume_lemma. Qed.
Print Assumptions dm_volume_found.
(* C117 does not hold for aliases of a renamed device: it keeps the alias of its old name. *)
Theorem dm_renamed_device_refuted : forall d0 l d u fu fn fs bu bn bs uuid name susp old,
  well_formed d0 -> fresh d0 -> Forall good_op l -> gsteps d0 l = Ok d -> good_dev u ->
  length bu = 129 -> length bn = 128 -> length bs = 10 ->
  shows 128 fu (Some uuid) -> shows 127 fn (Some name) -> shows 9 fs (Some susp) -> name <> [] -> susp <> [] ->
  (forall k, In k (prop_keys u) -> writable d DM k) ->
  old <> name -> has_alias d (B "name") old (this_dev u) ->
  exists d', get_sysfs_props d u fu fn fs bu bn bs = Ok (d', 0%Z) /\ has_alias d' (B "name") name (this_dev u) /\ has_alias d' (B "name") old (this_dev u).
Proof. exact rename_lemma. Qed.
Print Assumptions dm_renamed_device_refuted.

(* C118. Operations on groups, aliases and the device stack change no record, and no mark for the transfer, but those of member
   lists. *)
Theorem group_operations_keep_values : forall l d d' x, gsteps d l = Ok d' -> no_list x -> recs d' x = recs d x /\ indexed d' x = indexed d x.
Proof. exact (fun l d d' x H => steps_keep l d d' H x). Qed.
Print Assumptions group_operations_keep_values.

(* The volume root of the group my-vg *)
Definition dp_u : ucmd := Ucmd (DevCtx (Some (B "253_0")) (Some (B "U"))) 7 3.
Definition dp_d : db := Db (fun _ => None) (fun _ => false).
Definition dp_line (s : bytes) : Z + bytes := inr (s ++ [ascii_of_nat 10]).
Definition dp_run (d : db) (name : bytes) : outcome (db * Z) :=
  get_sysfs_props d dp_u (dp_line (B "LVM-abc")) (dp_line name) (dp_line (B "0")) (repeat "x"%char 129) (repeat "y"%char 128) (repeat "z"%char 10).
Lemma dp_shows s n : length s <= n -> ~ In NUL s -> ~ In (ascii_of_nat 10) s -> shows n (dp_line s) (Some s).
Proof. intros L A C. pose proof (Sh_line n s [] A C (fun H => H)) as H. rewrite firstn_all2 in H by exact L. exact H. Qed.
Example dp_case : well_formed dp_d /\ fresh dp_d /\ good_dev dp_u /\ shows 128 (dp_line (B "LVM-abc")) (Some (B "LVM-abc"))
  /\ shows 127 (dp_line (B "my--vg-root")) (Some (lvm_name (B "my-vg") (B "root") None)) /\ shows 9 (dp_line (B "0")) (Some (B "0"))
  /\ (forall k, writable dp_d DM k /\ writable dp_d LVM k) /\ shows 128 (inr [ascii_of_nat 10]) (Some []) /\ shows 127 (inl 2%Z) None.
Proof.
  split. { split; [|split]; [intros k _; constructor|intros g x _ []|intros i x _ []]. }
  split. { intros k c _ _. split; reflexivity. }
  split. { cbv. intuition discriminate. }
  split. { apply dp_shows; [cbn; lia| |]; cbv; intuition discriminate. }
  split. { change (lvm_name (B "my-vg") (B "root") None) with (B "my--vg-root"). apply dp_shows; [cbn; lia| |]; cbv; intuition discriminate. }
  split. { apply dp_shows; [cbn; lia| |]; cbv; intuition discriminate. }
  split. { intros k. split; intros o Ho; discriminate Ho. }
  split. { exact (Sh_line 128 [] [] (fun H => H) (fun H => H) (fun H => H)). }
  constructor. lia.
Qed.
Example dp_case_run : match dp_run dp_d (B "my--vg-root") with
  | Ok (d, r) => r = 0%Z /\ map (recs d) [B ":USR:X:U:M:/type/dm:uuid"; B ":USR:X:U:M:/type/dm:name"; B "::U:253_0:::DM_UUID"; B "::U:253_0:::DM_NAME"; B "::U:253_0:::.DM_SUSPENDED"]
      = map (fun p => Some (Rec 7 (fst p) 3 (B "/type/dm") [snd p ++ [NUL]])) [(66%N, B "LVM-abc"); (66%N, B "my--vg-root"); (6%N, B "LVM-abc"); (6%N, B "my--vg-root"); (6%N, B "0")]
      /\ map (data_at d) [B ":ALS:M:/type/dm:name:my--vg-root:#GMB"; B ":ALS:M:/type/dm:uuid:LVM-abc:#GMB"; B "::D:U:::#GIN"]
      = [Some [B "::D:U:::"]; Some [B "::D:U:::"]; Some [B ":ALS:M:/type/dm:name:my--vg-root:"; B ":ALS:M:/type/dm:uuid:LVM-abc:"]]
  | UB => False end.
Proof. vm_compute. repeat split. Qed.
(* Renamed to my--vg-home in the next event *)
Example dp_case_renamed : match dp_run dp_d (B "my--vg-root") with
  | Ok (d, _) => match dp_run d (B "my--vg-home") with
    | Ok (d, r) => r = 0%Z /\ map (data_at d) [B ":ALS:M:/type/dm:name:my--vg-root:#GMB"; B ":ALS:M:/type/dm:name:my--vg-home:#GMB"; B ":USR:X:U:M:/type/dm:name"]
       = [Some [B "::D:U:::"]; Some [B "::D:U:::"]; Some [B "my--vg-home" ++ [NUL]]]
    | UB => False end
  | UB => False end.
Proof. vm_compute. repeat split. Qed.
Example dp_case_history : exists d, gsteps dp_d [AliasAdd dp_u DM (B "name") (B "my--vg-root")] = Ok d /\ has_alias d (B "name") (B "my--vg-root") (this_dev dp_u)
  /\ forall k, In k (prop_keys dp_u) -> no_list k /\ recs d k = None.
Proof.
  eexists. split; [vm_compute; reflexivity|]. split; [vm_compute; left; reflexivity|].
  intros k Hk. split; [exact (prop_no_list _ _ Hk)|]. unfold prop_keys in Hk. cbn [map app In] in Hk. decompose [or] Hk; try contradiction; subst k; reflexivity.
Qed.
