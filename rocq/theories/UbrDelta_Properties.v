From Verif Require Import Base Kvs_Model UbrKey_Model UbrKey_Spec UbrDb_Model UbrDelta_Model UbrDelta_Spec UbrDelta_Proofs.
Local Open Scope nat_scope.

(* C52: setting, adding to and removing from a member list *)
Theorem delta_step_is_exact op old new : sorted (opt_list old) -> sorted new ->
  exists s f, delta_step_calc op old new = DOk s /\ d_final s = Some f /\ length (items f) <= room f
    /\ (forall b, d_plus s = Some b -> length (items b) <= room b) /\ (forall b, d_minus s = Some b -> length (items b) <= room b)
    /\ sorted (items f) /\ sorted (buf_items (d_plus s)) /\ sorted (buf_items (d_minus s))
    /\ (forall x, In x (items f) <-> result op (opt_list old) new x)
    /\ (forall x, In x (buf_items (d_plus s)) <-> In x (items f) /\ ~ In x (opt_list old))
    /\ (forall x, In x (buf_items (d_minus s)) <-> In x (opt_list old) /\ ~ In x (items f)).
Proof. exact (step_theorem op old new). Qed.
Print Assumptions delta_step_is_exact.
Example step_ex : delta_step_calc OP_SET (Some [B "a"; B "b"; B "d"]) [B "b"; B "c"]
  = DOk (Delta (Some (Dbuf 2 [B "c"])) (Some (Dbuf 3 [B "a"; B "d"])) (Some (Dbuf 9 [B "b"; B "c"]))).
Proof. vm_compute. reflexivity. Qed.
Example step_ex2 : sorted [B "a"; B "b"; B "d"] /\ sorted [B "b"; B "c"].
Proof. split; repeat (constructor; try (repeat constructor; fail)). Qed.
Example step_ex3 : delta_step_calc OP_MINUS (Some [B "a"; B "b"; B "d"]) [B "b"; B "c"]
  = DOk (Delta None (Some (Dbuf 3 [B "b"])) (Some (Dbuf 9 [B "a"; B "d"]))).
Proof. vm_compute. reflexivity. Qed.

(* C53: after any history of operations on groups, aliases and the device stack the stored deltas are what changed since the
   snapshot *)
Theorem deltas_follow_changes d0 l : well_formed d0 -> fresh d0 -> Forall good_op l ->
  exists d, gsteps d0 l = Ok d /\ well_formed d /\ (forall k, main_key k -> delta_exact d0 d k) /\ (symmetric d0 -> symmetric d).
Proof. exact (delta_history d0 l). Qed.
Print Assumptions deltas_follow_changes.
Theorem delta_applied_gives_current d0 d k : delta_exact d0 d k ->
  (forall x, In x (members d k) <-> (In x (members d0 k) /\ ~ In x (members d ("-"%char :: k))) \/ In x (members d ("+"%char :: k)))
  /\ (forall x, ~ (In x (members d ("+"%char :: k)) /\ In x (members d ("-"%char :: k)))).
Proof. exact (exact_parts d0 d k). Qed.
Print Assumptions delta_applied_gives_current.

Definition no_records : db := Db (fun _ => None) (fun _ => false).
Definition dev1 : ucmd := Ucmd (DevCtx (Some (B "8_0")) (Some (B "d1"))) 5 3.
Definition dev2 : ucmd := Ucmd (DevCtx (Some (B "8_16")) (Some (B "d2"))) 6 3.
Definition m : bytes := B "/block/x".
Definition history : list gop :=
  [AliasAdd dev1 m (B "name") (B "sda"); GrpCreate dev1 m NS_MODULE 0 (Some (B "c")) (B "g"); GrpAdd dev1 m NS_MODULE (B "c") (B "g");
   GrpAdd dev2 m NS_MODULE (B "c") (B "g"); Deps dev2 [B "7"; B "12"]; GrpDel dev1 m NS_MODULE (B "c") (B "g");
   AliasRename dev1 m (B "name") (B "sda") (B "sdb") 2; Deps dev2 [B "12"]].
Definition g_key : bytes := members_of (group_item_of NS_MODULE m (B "c") (B "g")).
Definition look (o : outcome db) (k : bytes) : option (list bytes) := match o with Ok d => data_at d k | UB => None end.
Example history_good : Forall good_op history /\ well_formed no_records /\ fresh no_records /\ symmetric no_records.
Proof.
  split; [|split; [|split]].
  - unfold history, good_op, good_dev, opt_no_colon, no_colon. cbn [dev1 dev2 u_dev uid_s].
    repeat (apply Forall_cons; [try (intros [H|[H|[]]]; discriminate H)|]); [| |apply Forall_nil].
    + split; [intros [H|[H|[]]]; discriminate H|]. split; [repeat constructor; cbn; intuition discriminate|].
      intros s [<-|[<-|[]]]; cbn; intuition discriminate.
    + split; [intros [H|[H|[]]]; discriminate H|]. split; [repeat constructor; cbn; intuition discriminate|].
      intros s [<-|[]]; cbn; intuition discriminate.
  - split; [intros; constructor|]. split; intros ? ? ? [].
  - intros k c _ _. split; reflexivity.
  - split; intros; cbn; tauto.
Qed.
Example history_members : map (look (gsteps no_records history))
    [g_key; members_of (alias_item m (B "name") (B "sda")); members_of (alias_item m (B "name") (B "sdb")); in_of (dev_item (B "d1"));
     in_of (dev_item (B "d2")); members_of (dev_item (B "d2")); in_of (dseq_item (B "7")); in_of (dseq_item (B "12"))]
  = [Some [dev_item (B "d2")]; Some []; Some [dev_item (B "d1")]; Some [alias_item m (B "name") (B "sdb")];
     Some [group_item_of NS_MODULE m (B "c") (B "g")]; Some [dseq_item (B "12")]; Some []; Some [dev_item (B "d2")]].
Proof. vm_compute. reflexivity. Qed.
Example history_deltas : map (look (gsteps no_records history)) ["+"%char :: g_key; "-"%char :: g_key] = [Some [dev_item (B "d2")]; None].
Proof. vm_compute. reflexivity. Qed.

(* C54: starting from a database in which both directions agree they always agree *)
Theorem membership_is_symmetric d0 l d : well_formed d0 -> fresh d0 -> symmetric d0 -> Forall good_op l -> gsteps d0 l = Ok d ->
  symmetric d.
Proof. exact (symmetric_history d0 l d). Qed.
Print Assumptions membership_is_symmetric.
Example symmetric_ex : look (gsteps no_records [GrpAdd dev1 m NS_MODULE (B "c") (B "g")]) g_key = Some [dev_item (B "d1")]
  /\ look (gsteps no_records [GrpAdd dev1 m NS_MODULE (B "c") (B "g")]) (in_of (dev_item (B "d1"))) = Some [group_item_of NS_MODULE m (B "c") (B "g")].
Proof. vm_compute. split; reflexivity. Qed.

(* C82: what each operation does to the lists *)
Theorem alias_edit d0 l d u owner cat id (add : bool) : well_formed d0 -> fresh d0 -> Forall good_op l -> gsteps d0 l = Ok d ->
  good_dev u -> cat <> [] -> id <> [] ->
  exists d', gstep d (if add then AliasAdd u owner cat id else AliasDel u owner cat id) = Ok (d', 0%Z)
   /\ (forall x, In x (members d' (members_of (alias_item owner cat id))) <->
         if add then In x (members d (members_of (alias_item owner cat id))) \/ x = this_dev u
         else In x (members d (members_of (alias_item owner cat id))) /\ x <> this_dev u)
   /\ (forall g x, group_item g -> g <> alias_item owner cat id -> (In x (members d' (members_of g)) <-> In x (members d (members_of g)))).
Proof. exact (alias_edit_lemma d0 l d u owner cat id add). Qed.
Print Assumptions alias_edit.
Theorem group_edit d0 l d u owner ns cat id (add : bool) : well_formed d0 -> fresh d0 -> Forall good_op l -> gsteps d0 l = Ok d ->
  good_dev u -> ns <> NS_UNDEFINED -> cat <> [] -> id <> [] ->
  exists d', gstep d (if add then GrpAdd u owner ns cat id else GrpDel u owner ns cat id) = Ok (d', 0%Z)
   /\ (forall x, In x (members d' (members_of (group_item_of ns owner cat id))) <->
         if add then In x (members d (members_of (group_item_of ns owner cat id))) \/ x = this_dev u
         else In x (members d (members_of (group_item_of ns owner cat id))) /\ x <> this_dev u)
   /\ (forall g x, group_item g -> g <> group_item_of ns owner cat id -> (In x (members d' (members_of g)) <-> In x (members d (members_of g)))).
Proof. exact (group_edit_lemma d0 l d u owner ns cat id add). Qed.
Print Assumptions group_edit.
Theorem group_destroyed d0 l d u owner ns cat id force dfl : well_formed d0 -> fresh d0 -> Forall good_op l -> gsteps d0 l = Ok d ->
  good_dev u -> ns <> NS_UNDEFINED -> id <> [] ->
  let g := group_item_of ns (match scope (u_dev u) owner ns with p :: _ => p | [] => [] end) (str cat) id in
  exists d' r, gstep d (GrpDestroy u owner ns cat id force dfl) = Ok (d', r)
   /\ (force = true -> forall x, ~ In x (members d' (members_of g)))
   /\ (force = false -> members d (members_of g) <> [] -> d' = d /\ r = (- ENOTEMPTY)%Z)
   /\ (forall g' x, group_item g' -> g' <> g -> (In x (members d' (members_of g')) <-> In x (members d (members_of g')))).
Proof. exact (destroy_theorem d0 l d u owner ns cat id force dfl). Qed.
Print Assumptions group_destroyed.
Example destroy_ex : match gsteps no_records [GrpAdd dev1 m NS_MODULE (B "c") (B "g")] with
  | Ok d => match gstep d (GrpDestroy dev2 m NS_MODULE (Some (B "c")) (B "g") false 2), gstep d (GrpDestroy dev2 m NS_MODULE (Some (B "c")) (B "g") true 2) with
            | Ok (_, r), Ok (d', r') => (r, r', data_at d' g_key, data_at d' (in_of (dev_item (B "d1")))) | _, _ => (0, 0, None, None)%Z end
  | UB => (0, 0, None, None)%Z end = ((-39)%Z, 0%Z, Some [], Some []).
Proof. vm_compute. reflexivity. Qed.
Theorem alias_renamed_partial d0 l d u owner cat old new dfl r : well_formed d0 -> fresh d0 -> Forall good_op l -> gsteps d0 l = Ok d ->
  good_dev u -> cat <> [] -> old <> [] -> new <> [] ->
  recs d (members_of (alias_item owner cat old)) = Some r -> N.land (r_flags r) FL_RD = FL_RD -> r_data r <> [] ->
  exists d' c, gstep d (AliasRename u owner cat old new dfl) = Ok (d', c)
   /\ (forall x, ~ In x (members d' (members_of (alias_item owner cat old))))
   /\ (old <> new -> forall x, In x (members d' (members_of (alias_item owner cat new))) <->
         In x (members d (members_of (alias_item owner cat new))) \/ In x (members d (members_of (alias_item owner cat old)))).
Proof. exact (rename_lemma d0 l d u owner cat old new dfl r). Qed.
Print Assumptions alias_renamed_partial.
Example rename_readable : match gsteps no_records [AliasAdd dev1 m (B "name") (B "sda")] with
  | Ok d => match recs d (members_of (alias_item m (B "name") (B "sda"))) with
            | Some r => (N.land (r_flags r) FL_RD, r_data r) | None => (0%N, []) end
  | UB => (0%N, []) end = (FL_RD, [dev_item (B "d1")]).
Proof. vm_compute. reflexivity. Qed.
(* an alias renamed to its own name loses its devices *)
Theorem alias_rename_to_itself_refuted :
  look (gsteps no_records [AliasAdd dev1 m (B "name") (B "sda"); AliasRename dev1 m (B "name") (B "sda") (B "sda") 2])
       (members_of (alias_item m (B "name") (B "sda"))) = Some [].
Proof. vm_compute. reflexivity. Qed.
Print Assumptions alias_rename_to_itself_refuted.
(* a group outside the module namespace: devices are added to another record than the one created, so that the group looks
   empty and is destroyed without force while the device still lists it *)
Theorem group_outside_module_refuted :
  let made := members_of (group_item_of NS_DEVICE (B "d1") (B "c") (B "g")) in
  let used := members_of (group_item_of NS_DEVICE m (B "c") (B "g")) in
  let d := gsteps no_records [GrpCreate dev1 m NS_DEVICE 0 (Some (B "c")) (B "g"); GrpAdd dev1 m NS_DEVICE (B "c") (B "g")] in
  look d made = Some [] /\ look d used = Some [dev_item (B "d1")]
  /\ match (let! d := d in gstep d (GrpDestroy dev1 m NS_DEVICE (Some (B "c")) (B "g") false 2)) with
     | Ok (d', r) => r = 0%Z /\ data_at d' (in_of (dev_item (B "d1"))) = Some [group_item_of NS_DEVICE m (B "c") (B "g")]
     | UB => False end.
Proof. vm_compute. repeat split. Qed.
Print Assumptions group_outside_module_refuted.
