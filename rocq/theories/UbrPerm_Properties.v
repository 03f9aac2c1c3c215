(* Module relations, record permissions and reservations (C48-C51, C81): src/resource/ubr.c *)
From Verif Require Import Base Kvs_Model UbrKey_Model UbrKey_Spec UbrDb_Model UbrPerm_Spec UbrPerm_Proofs.
Local Open Scope nat_scope.

(* C48.  As claimed, "sub-module" would mean below.  It does not: names of two registries, and names with nothing but the
   first character in common, are sub-modules of each other *)
Theorem module_relation_refuted : forall r s a b, no_nul r -> no_nul s -> no_nul a -> no_nul b -> r <> [] -> s <> [] -> hd_error r <> hd_error s ->
  mod_match (full_name r a) (full_name s b) = MOD_SUB_MATCH /\ mod_match (full_name s b) (full_name r a) = MOD_SUB_MATCH
  /\ ~ below (full_name r a) (full_name s b).
Proof. exact registries_lemma. Qed.
Print Assumptions module_relation_refuted.
Example module_relation_refuted_case : mod_match (B "/block/dm") (B "/type/lvm") = MOD_SUB_MATCH
  /\ mod_match (B "/block/dmx") (B "/block/dm/lvm") = MOD_SUB_MATCH /\ mod_match (B "/block/a") (B "/block/b") = MOD_NO_MATCH.
Proof. repeat split. Qed.
(* What the relation is; with same, core and real ancestors right, and modules of one registry unrelated *)
Theorem module_relation_partial :
  (forall o w m, no_nul o -> no_nul w -> (mod_match o w = m <-> stands o w m))
  /\ (forall o w, no_nul o -> no_nul w -> (mod_match o w = MOD_MATCH <-> o = w /\ w <> B "/"))
  /\ (forall o w, mod_match o w = MOD_CORE_MATCH <-> w = B "/")
  /\ (forall a m, no_nul a -> no_nul m -> a <> [] -> below a m -> mod_match a m = MOD_SUB_MATCH)
  /\ (forall m, no_nul m -> m <> [] -> mod_match (B "/") (B "/" ++ m) = MOD_SUB_MATCH)
  /\ (forall a m, no_nul a -> no_nul m -> a <> [] -> a <> B "/" -> below a m -> mod_match m a = MOD_SUP_MATCH)
  /\ (forall r a b, no_nul r -> no_nul a -> no_nul b -> no_slash a -> no_slash b -> a <> b ->
        mod_match (full_name r a) (full_name r b) = MOD_NO_MATCH).
Proof.
  split; [exact match_iff|]. split; [exact same_lemma|]. split; [exact core_lemma|]. split; [exact below_sub|].
  split; [exact below_root|]. split; [exact below_sup|exact one_registry].
Qed.
Print Assumptions module_relation_partial.
Example module_relation_case : below (B "/block/dm") (B "/block/dm/lvm") /\ mod_match (B "/block/dm/lvm") (B "/block/dm") = MOD_SUP_MATCH
  /\ full_name (B "block") (B "dm") = B "/block/dm".
Proof. split; [exists (B "lvm"); split; [discriminate|reflexivity]|split; reflexivity]. Qed.

(* C49 *)
Definition old1 : rec := Rec 7 (1024 + 32) 3 (B "/block/dm/lvm") [B "v"].
Definition db1 : db := Db (fun k => if key_eqb k (B ":USR:D:0d1b:::x") then Some old1 else None) (fun _ => false).
Theorem write_permission_matrix : forall d key new arch sync o k, canonicalize_key key = k -> recs d k = Some o ->
  no_nul (r_owner o) -> no_nul (r_owner new) -> (forall a, arch = Some a -> canonicalize_key a <> k) ->
  let '(d', code, stored) := kvs_set d key new arch (cb_write sync) in
  (may_write o (r_owner new) -> recs d' k = Some new /\ stored = Some new /\ (code >= 0)%Z
     /\ (forall a, arch = Some a -> recs d' (canonicalize_key a) = Some o)
     /\ (forall x, x <> k -> (forall a, arch = Some a -> x <> canonicalize_key a) -> recs d' x = recs d x)) /\
  (~ may_write o (r_owner new) -> d' = d /\ stored = None /\
     (is_reserved o -> code = (- EBUSY)%Z) /\ (~ is_reserved o -> may_read o (r_owner new) -> code = (- EPERM)%Z)
     /\ (~ is_reserved o -> ~ may_read o (r_owner new) -> code = (- EACCES)%Z)).
Proof. exact write_lemma. Qed.
Print Assumptions write_permission_matrix.
Example write_permission_case : may_write old1 (B "/block/dm") /\ ~ may_write old1 (B "/block/x") /\ may_read old1 (B "/block/x").
Proof.
  split; [|split].
  - intros m H. apply match_iff in H; [|intro X; cbn in X; intuition discriminate..]. vm_compute in H. subst m. reflexivity.
  - intros H. specialize (H MOD_NO_MATCH). discriminate H. apply match_iff; [intro X; cbn in X; intuition discriminate..|reflexivity].
  - intros m H. apply match_iff in H; [|intro X; cbn in X; intuition discriminate..]. vm_compute in H. subst m. reflexivity.
Qed.

(* C50.  A set that is not permitted either reads through a null pointer or returns 0 *)
Theorem denied_set_refuted : forall d u w n c v f o, good_name n c -> recs d (record_key u w n c) = Some o ->
  no_nul (r_owner o) -> no_nul w -> ~ may_write o w ->
  kv_set d u w n c v f = match v with Some _ => UB | None => Ok (d, 0%Z, None) end.
Proof. exact denied_lemma. Qed.
Print Assumptions denied_set_refuted.
Definition uc1 : ucmd := Ucmd (DevCtx (Some (B "8_0")) (Some (B "0d1b"))) 12 3.
Example denied_set_case : recs db1 (record_key uc1 (B "/block/x") NS_DEVICE (B "x")) = Some old1
  /\ kv_set db1 uc1 (B "/block/x") NS_DEVICE (B "x") (Some (B "w")) 0 = UB
  /\ kv_set db1 uc1 (B "/block/x") NS_DEVICE (B "x") None 0 = Ok (db1, 0%Z, None).
Proof. repeat split. Qed.
(* A permitted set stores the record with the caller's value, and the old record in the archive if asked *)
Theorem permitted_set_partial : forall d u w n c v f, good_name n c -> no_nul w ->
  (forall o, recs d (record_key u w n c) = Some o -> no_nul (r_owner o) /\ may_write o w) ->
  let new := Rec (u_seq u) (if ns_eqb n NS_UDEV then N.lor f 6 else f) (u_gen u) w (match v with Some v => [v] | None => [] end) in
  exists d', kv_set d u w n c v f = Ok (d', 0%Z, Some new)
    /\ recs d' (record_key u w n c) = Some new
    /\ (forall o, recs d (record_key u w n c) = Some o -> N.testbit f 3 = true -> recs d' ("~"%char :: record_key u w n c) = Some o)
    /\ (forall x, x <> record_key u w n c ->
          (x = "~"%char :: record_key u w n c -> N.testbit f 3 = false \/ recs d (record_key u w n c) = None) -> recs d' x = recs d x).
Proof. exact allowed_lemma. Qed.
Print Assumptions permitted_set_partial.
Example permitted_set_case : exists d', kv_set db1 uc1 (B "/block/dm") NS_DEVICE (B "x") (Some (B "w")) 8 =
    Ok (d', 0%Z, Some (Rec 12 8 3 (B "/block/dm") [B "w"])) /\ recs d' (B ":USR:D:0d1b:::x") = Some (Rec 12 8 3 (B "/block/dm") [B "w"])
  /\ recs d' (B "~:USR:D:0d1b:::x") = Some old1.
Proof. eexists. split; [reflexivity|split; reflexivity]. Qed.

(* C51.  Two databases that differ in a reservation accept the same set: the answer of the check of the reservation is dropped *)
Theorem reservation_ignored_refuted :
  (forall d w n c, no_nul w -> (forall o, recs d (reservation_key n c) = Some o -> no_nul (r_owner o)) -> (n = NS_UDEV \/ n = NS_DEVICE) ->
     (check_global_kv_rs_for_wr d w (api_dom n) n c = 0%Z <->
        exists o, recs d (reservation_key n c) = Some o /\ is_reserved o /\ ~ may_write o w)
     /\ (check_global_kv_rs_for_wr d w (api_dom n) n c = 0%Z \/ check_global_kv_rs_for_wr d w (api_dom n) n c = 1%Z))
  /\ (forall d d' u w n c v f, good_name n c -> recs d (record_key u w n c) = None -> recs d' (record_key u w n c) = None -> no_nul w ->
      exists e e' new, kv_set d u w n c v f = Ok (e, 0%Z, Some new) /\ kv_set d' u w n c v f = Ok (e', 0%Z, Some new)
        /\ recs e (record_key u w n c) = Some new /\ recs e' (record_key u w n c) = Some new).
Proof. split; [exact global_check_lemma|]. intros d d' u w n c v f A1 A2 A3 A4. destruct (ignored_lemma d d' u w n c v f A1 A2 A3 A4) as (e & e' & H1 & H2 & H3 & H4). eauto 10. Qed.
Print Assumptions reservation_ignored_refuted.
Definition db0 : db := Db (fun _ => None) (fun _ => false).
Example reservation_ignored_case :
  exists d, kv_reserve db0 3 (B "/block/dm") NS_DEVICE (B "x") 0 false = Ok (d, 0%Z)
  /\ check_global_kv_rs_for_wr d (B "/block/y") (Some (B "USR")) NS_DEVICE (B "x") = 0%Z
  /\ exists e, kv_set d uc1 (B "/block/y") NS_DEVICE (B "x") (Some (B "w")) 0 = Ok (e, 0%Z, Some (Rec 12 0 3 (B "/block/y") [B "w"])).
Proof. eexists. split; [reflexivity|]. split; [reflexivity|]. eexists. reflexivity. Qed.
(* What does hold: a reservation record names its owner, and no other module takes it over or removes it (in the main
   process); the refused reservation still returns 0.  A namespace without a per-device part is protected, the reservation
   being the record itself. *)
Theorem reservation_kept_partial :
  (forall d g w n c f wk, name_ok c -> N.testbit f 0 = false -> no_nul w ->
    (forall o, recs d (reservation_key n c) = Some o -> no_nul (r_owner o)) ->
    ((forall o, recs d (reservation_key n c) = Some o -> r_owner o = w \/ w = B "/") ->
       exists d', kv_reserve d g w n c f wk = Ok (d', 0%Z) /\ (forall x, x <> reservation_key n c -> recs d' x = recs d x) /\
         exists o, recs d' (reservation_key n c) = Some o /\ r_owner o = w /\ is_reserved o
           /\ (forall b, In b [8; 9; 10; 5; 6; 7]%N -> flag o b <-> N.testbit f b = true))
    /\ ((exists o, recs d (reservation_key n c) = Some o /\ r_owner o <> w /\ w <> B "/") -> kv_reserve d g w n c f wk = Ok (d, 0%Z)))
  /\ (forall d g w n c, name_ok c -> no_nul w ->
    (forall o, recs d (reservation_key n c) = Some o -> no_nul (r_owner o)) ->
    ((forall o, recs d (reservation_key n c) = Some o -> r_owner o = w \/ w = B "/") ->
       exists d', kv_unreserve d g w n c false = Ok (d', 0%Z) /\ recs d' (reservation_key n c) = None
         /\ (forall x, x <> reservation_key n c -> recs d' x = recs d x))
    /\ ((exists o, recs d (reservation_key n c) = Some o /\ r_owner o <> w /\ w <> B "/") -> kv_unreserve d g w n c false = Ok (d, (-1)%Z)))
  /\ (forall u w c, record_key u w NS_GLOBAL c = reservation_key NS_GLOBAL c).
Proof. split; [exact reserve_lemma|]. split; [exact unreserve_lemma|reflexivity]. Qed.
Print Assumptions reservation_kept_partial.
Example reservation_kept_case :
  exists d, kv_reserve db0 3 (B "/block/dm") NS_GLOBAL (B "x") 0 false = Ok (d, 0%Z)
  /\ kv_unreserve d 3 (B "/block/y") NS_GLOBAL (B "x") false = Ok (d, (-1)%Z)
  /\ kv_set d uc1 (B "/block/y") NS_GLOBAL (B "x") None 0 = Ok (d, 0%Z, None).
Proof. eexists. repeat split. Qed.
(* Reserving with the alignment flag writes past the four items of the header *)
Theorem reserve_aligned_refuted : forall d g w n c f wk, name_ok c -> N.testbit f 0 = true -> kv_reserve d g w n c f wk = UB.
Proof. exact aligned_lemma. Qed.
Print Assumptions reserve_aligned_refuted.
Example reserve_aligned_case : name_ok (B "x") /\ N.testbit 1 0 = true.
Proof. split; [split; discriminate|reflexivity]. Qed.

(* C81 *)
Theorem read_permission_matrix : forall d u w n c, good_name n c -> no_nul w ->
  (recs d (record_key u w n c) = None -> kv_get d u w n c 0 None None = (None, (- ENOENT)%Z))
  /\ (forall o, recs d (record_key u w n c) = Some o -> no_nul (r_owner o) ->
       (~ may_read o w -> kv_get d u w n c 0 None None = (None, (- EPERM)%Z))
       /\ (may_read o w -> r_data o <> [] -> kv_get d u w n c 0 None None = (Some (r_data o, r_flags o), 0%Z))
       /\ (may_read o w -> r_data o = [] -> kv_get d u w n c 0 None None = (None, 0%Z))).
Proof. exact get_lemma. Qed.
Print Assumptions read_permission_matrix.
Example read_permission_case : kv_get db1 uc1 (B "/block/x") NS_DEVICE (B "x") 0 None None = (Some ([B "v"], 1056%N), 0%Z)
  /\ kv_get db1 uc1 (B "/block/dm") NS_DEVICE (B "x") 0 None None = (None, (- EPERM)%Z).
Proof. split; reflexivity. Qed.
