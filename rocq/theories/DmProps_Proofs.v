From Verif Require Import Base Kvs_Model UtilStr_Spec BaseUtil_Model BaseUtil_Spec BaseUtil_Proofs UbrKey_Model UbrKey_Spec UbrKey_Proofs UbrDb_Model UbrDelta_Model UbrDelta_Spec UbrDelta_Proofs
  UbrRec_Model UbrRec_Proofs UbrPerm_Spec UbrPerm_Proofs UbrScan_Model Lvm_Model Lvm_Spec Lvm_Proofs Dm_Model Dm_Spec DmProps_Model DmProps_Spec.
Local Open Scope nat_scope.

(* Groups and aliases touch member lists only *)
Definition keeps (d d' : db) : Prop := forall x, no_list x -> recs d' x = recs d x /\ indexed d' x = indexed d x.
Lemma keeps_refl d : keeps d d. Proof. intros x _. auto. Qed.
Lemma keeps_trans a b c : keeps a b -> keeps b c -> keeps a c.
Proof. intros H K x N. destruct (H x N), (K x N). split; congruence. Qed.
Definition is_list (k : bytes) : Prop := exists p, k = members_of p \/ k = in_of p.
Lemma list_ne k x : is_list k -> no_list x -> x <> k.
Proof. intros [p [-> | ->]] N; apply N. Qed.
Definition list_spec (s : key_spec) : Prop := ks_extra s = None /\ (ks_core s = Some K_MEMBERS \/ ks_core s = Some K_IN).
Lemma canon_idem k : canonicalize_key (canonicalize_key k) = canonicalize_key k.
Proof. induction k as [|c k IH]; [reflexivity|]. cbn [canonicalize_key]. destruct (Kvs_Model.isspace c) eqn:E; [exact IH|]. cbn [canonicalize_key]. rewrite E. reflexivity. Qed.
Lemma store_is_list s : list_spec s -> is_list (store_key s).
Proof.
  intros (E & C). unfold store_key. rewrite canon_compose, E. rewrite <- prefix_joined. exists (compose_key_prefix s).
  unfold members_of, in_of. destruct C as [-> | ->]; [left|right]; reflexivity.
Qed.
Lemma with_list s o : list_spec s -> list_spec (with_op s o). Proof. exact (fun H => H). Qed.

Lemma put_keeps d k r i : is_list k -> (forall x, no_list x -> i x = indexed d x) -> keeps d (Db (put (recs d) k r) i).
Proof.
  intros L H x N. cbn [recs indexed]. split; [|apply H, N]. unfold put. destruct (key_eqb_spec x k) as [E|E]; [|reflexivity]. exfalso. exact (list_ne _ _ L N E).
Qed.
Lemma manage_keeps d c k : is_list k -> keeps d (manage_kv_index d c k).
Proof.
  intros L x N. unfold manage_kv_index. pose proof (list_ne _ _ L N) as E.
  destruct (c =? KV_INDEX_ADD)%Z; [|destruct (c =? KV_INDEX_REMOVE)%Z]; cbn [recs indexed]; (split; [reflexivity|]); try reflexivity;
    unfold mark; destruct (key_eqb_spec x k); congruence.
Qed.
Lemma write_keeps d k h op new s d' c t : is_list k -> delta_write d k h op new s = DOk (d', c, t) -> keeps d d'.
Proof.
  intros L. unfold delta_write. destruct (_ <? 0)%Z; [intros E; injection E as <- _ _; apply keeps_refl|].
  destruct (delta_step_calc _ _ _) as [st| |]; try discriminate; [|intros E; injection E as <- _ _; apply keeps_refl].
  destruct (d_final st); intros E; injection E as <- _ _; [|apply keeps_refl]. apply put_keeps; [exact L|reflexivity].
Qed.
Lemma set_keeps d k n cb d' c t : is_list (canonicalize_key k) -> kvs_set d k n None cb = (d', c, t) -> keeps d d'.
Proof.
  intros L. unfold kvs_set. destruct (cb _ _) as [z ok]. destruct ok; intros E; injection E as <- _ _; [|apply keeps_refl].
  apply put_keeps; [exact L|reflexivity].
Qed.
Lemma unset_keeps d k cb d' c : is_list (canonicalize_key k) -> kvs_unset d k cb = (d', c) -> keeps d d'.
Proof.
  intros L. unfold kvs_unset. destruct (cb _) as [z ok]. destruct ok; intros E; injection E as <- _; [|apply keeps_refl].
  apply put_keeps; [exact L|reflexivity].
Qed.
Lemma abs_keeps d s h a : list_spec s -> keeps d (store_abs d (store_key s) h a).
Proof.
  intros L. pose proof (store_is_list s L) as K. assert (K' : is_list (canonicalize_key (store_key s))) by (unfold store_key; rewrite canon_idem; exact K).
  unfold store_abs. destruct (items a).
  - destruct (kvs_unset _ _ _) as [d1 c] eqn:E. exact (keeps_trans _ _ _ (unset_keeps _ _ _ _ _ K' E) (manage_keeps _ _ _ K)).
  - destruct (kvs_set _ _ _ _ _) as [[d1 c] t] eqn:E. exact (keeps_trans _ _ _ (set_keeps _ _ _ _ _ _ _ K' E) (manage_keeps _ _ _ K)).
Qed.
Lemma diff_keeps d s h op new d' r : list_spec s -> delta_set_diff d s h op new = Ok (d', r) -> keeps d d'.
Proof.
  intros L. pose proof (store_is_list s L) as K. unfold delta_set_diff.
  destruct (delta_write _ _ _ _ _ _) as [[[d1 c] t]| |] eqn:E; [|intros X; injection X as <- _; apply keeps_refl|discriminate].
  pose proof (write_keeps _ _ _ _ _ _ _ _ _ K E) as K1. destruct (c <? 0)%Z; [intros X; injection X as <- _; exact K1|].
  destruct (delta_abs_calc _ _ _) as [[p m]| |]; [|intros X; injection X as <- _; exact K1|discriminate].
  intros X. injection X as <- _. eapply keeps_trans; [exact K1|]. eapply keeps_trans.
  - instantiate (1 := match p with Some p => store_abs d1 (store_key (with_op s OP_PLUS)) h p | None => d1 end). destruct p; [apply abs_keeps, with_list, L|apply keeps_refl].
  - destruct m; [apply abs_keeps, with_list, L|apply keeps_refl].
Qed.
Lemma relative_list r x k : list_spec r -> relative r x = Some k -> list_spec k.
Proof.
  intros (E & C). unfold relative. destruct (ks_ns r); try discriminate.
  - destruct (get_key_part _ _); [|discriminate]. intros X. injection X as <-. split; assumption.
  - destruct (get_key_part _ _); [|discriminate]. intros X. injection X as <-. split; assumption.
Qed.
Lemma rels_keep cur rel h op : list_spec rel -> forall l d d' r, delta_rels d cur rel h op l = Ok (d', r) -> keeps d d'.
Proof.
  intros L. induction l as [|x l IH]; intros d d' r; cbn [delta_rels]; [intros X; injection X as <- _; apply keeps_refl|].
  destruct (relative rel x) as [k|] eqn:R; [|intros X; injection X as <- _; apply keeps_refl].
  destruct (delta_set_diff _ _ _ _ _) as [[d1 c]|] eqn:E; [|discriminate]. cbn [obind]. intros X.
  exact (keeps_trans _ _ _ (diff_keeps _ _ _ _ _ _ _ (relative_list _ _ _ L R) E) (IH _ _ _ X)).
Qed.
Lemma update_keeps d cur rel h op a n d' r : list_spec cur -> list_spec rel -> delta_update d cur rel h op a n = Ok (d', r) -> keeps d d'.
Proof.
  intros L L'. unfold delta_update. destruct a; [|intros X; injection X as <- _; apply keeps_refl].
  intros X. exact (keeps_trans _ _ _ (abs_keeps _ _ _ _ (with_list _ _ L)) (rels_keep _ _ _ _ L' _ _ _ _ X)).
Qed.
Lemma delta_keeps d cur rel h op new d' r : list_spec cur -> list_spec rel -> kv_delta_set d cur rel h op new = Ok (d', r) -> keeps d d'.
Proof.
  intros L L'. pose proof (store_is_list cur L) as K. unfold kv_delta_set.
  destruct (delta_write _ _ _ _ _ _) as [[[d1 c] t]| |] eqn:E; [|intros X; injection X as <- _; apply keeps_refl|discriminate].
  pose proof (write_keeps _ _ _ _ _ _ _ _ _ K E) as K1. destruct (c <? 0)%Z; [intros X; injection X as <- _; exact K1|].
  destruct (delta_abs_calc _ _ _) as [[p m]| |]; [|intros X; injection X as <- _; exact K1|discriminate].
  destruct (delta_update d1 _ _ _ _ _ _) as [[d2 c2]|] eqn:E2; [|discriminate]. cbn [obind].
  pose proof (keeps_trans _ _ _ K1 (update_keeps _ _ _ _ _ _ _ _ _ L L' E2)) as K2. destruct (c2 <? 0)%Z; [intros X; injection X as <- _; exact K2|].
  destruct (delta_update d2 _ _ _ _ _ _) as [[d3 c3]|] eqn:E3; [|discriminate]. cbn [obind].
  pose proof (keeps_trans _ _ _ K2 (update_keeps _ _ _ _ _ _ _ _ _ L L' E3)) as K3. destruct (c3 <? 0)%Z; intros X; injection X as <- _; exact K3.
Qed.
Lemma handle_keeps d u o v dom ns cat id op d' r : handle_devs_for_group d u o v dom ns cat id op = Ok (d', r) -> keeps d d'.
Proof. apply delta_keeps; split; cbn; auto. Qed.
Lemma destroy_keeps d u o dom ns cat id f fl d' r : group_destroy d u o dom ns cat id f fl = Ok (d', r) -> keeps d d'.
Proof.
  unfold group_destroy. destruct (data_at _ _); [|intros X; injection X as <- _; apply keeps_refl].
  destruct (_ && _); [intros X; injection X as <- _; apply keeps_refl|]. apply delta_keeps; split; cbn; auto.
Qed.
Lemma step_keeps d o d' r : gstep d o = Ok (d', r) -> keeps d d'.
Proof.
  assert (R : forall z, Ok (d, z) = Ok (d', r) -> keeps d d') by (intros z X; injection X as <- _; apply keeps_refl).
  destruct o; cbn [gstep]; try (destruct (_ || _); [apply R|]); try apply handle_keeps; try apply destroy_keeps.
  - destruct (cmd_get_key_value _ _ _) as [[[v fl]|] z]; [|apply R]. destruct (handle_devs_for_group _ _ _ _ _ _ _ _ _) as [[d1 z1]|] eqn:E; [|discriminate].
    cbn [obind]. pose proof (handle_keeps _ _ _ _ _ _ _ _ _ _ _ E) as K. destruct (z1 <? 0)%Z; [intros X; injection X as <- _; exact K|].
    intros X. exact (keeps_trans _ _ _ K (destroy_keeps _ _ _ _ _ _ _ _ _ _ _ X)).
  - unfold group_create. destruct (kvs_set _ _ _ _ _) as [[d1 c] t] eqn:E. intros X. injection X as <- _.
    assert (L : is_list (canonicalize_key (compose_key (group_spec_ns u owner DOM_GROUP ns cat id)))) by (apply (store_is_list (group_spec_ns u owner DOM_GROUP ns cat id)); split; cbn; auto).
    exact (keeps_trans _ _ _ (set_keeps _ _ _ _ _ _ _ L E) (manage_keeps _ _ _ L)).
  - apply delta_keeps; split; cbn; auto.
Qed.
Lemma steps_keep : forall l d d', gsteps d l = Ok d' -> keeps d d'.
Proof.
  induction l as [|o l IH]; intros d d'; cbn [gsteps]; [intros X; injection X as <-; apply keeps_refl|].
  destruct (gstep d o) as [[d1 c]|] eqn:E; [|discriminate]. cbn [obind]. intros X. exact (keeps_trans _ _ _ (step_keeps _ _ _ _ E) (IH _ _ X)).
Qed.

(* Files *)
Lemma value_shows f n o b : shows n f o -> length b = S n -> 1 <= n ->
  match o with
  | None => exists r b', get_sysfs_value f b = Ok (r, b') /\ (r < 0)%Z
  | Some v => exists rest, get_sysfs_value f b = Ok (0%Z, v ++ NUL :: rest) /\ ~ In NUL v
  end.
Proof.
  intros H L L1. assert (X : forall file line, file <> [] -> ~ In NUL file -> ~ In (ascii_of_nat 10) line -> (file = line \/ exists rest, file = line ++ [ascii_of_nat 10] ++ rest) ->
    exists rest, get_sysfs_value (inr file) b = Ok (0%Z, firstn n line ++ NUL :: rest) /\ ~ In NUL (firstn n line)).
  { intros file line A C D E. destruct (sysfs_lemma file line b A C D E ltac:(lia)) as (b' & Eb & _ & (T1 & r & T2)). replace (length b - 1) with n in * by lia. subst b'.
    exists r. split; [|exact T1]. unfold get_sysfs_value. rewrite Eb. reflexivity. }
  destruct H as [e He| |line rest N1 N2 N3|line N1 N2 N3].
  - exists (- e)%Z, b. unfold get_sysfs_value, sysfs_get. cbn [obind]. replace (- e <? 0)%Z with true by lia. split; [reflexivity|lia].
  - exists (- EIO)%Z, b. unfold get_sysfs_value, sysfs_get, fgets. rewrite L. destruct n as [|n]; [lia|]. cbn. split; [reflexivity|]. unfold EIO. lia.
  - apply X; [destruct line; discriminate| |exact N2|right; exists rest; reflexivity].
    rewrite in_app_iff. cbn [In]. intros [A|[A|A]]; [exact (N1 A)|discriminate A|exact (N3 A)].
  - apply X; [exact N3|exact N1|exact N2|left; reflexivity].
Qed.
Lemma set_is v rest : ~ In NUL v -> set_ (v ++ NUL :: rest) = Ok (negb (length v =? 0)).
Proof. intros H. destruct v as [|c v]; [reflexivity|]. cbn [app set_ length Nat.eqb negb]. destruct (Ascii.eqb_spec c NUL) as [->|]; [destruct H; left; reflexivity|reflexivity]. Qed.

Lemma dm_nul : no_nul MOD_DM. Proof. cbv. intuition discriminate. Qed.
Lemma buf_set_ok d u n c v rest f k g : good_name n c -> ~ In NUL v -> N.testbit f 3 = false -> record_key u MOD_DM n c = k -> writable d MOD_DM k ->
  (if ns_eqb n NS_UDEV then N.lor f 6 else f) = g ->
  exists d', buf_set d u n c (v ++ NUL :: rest) f = Ok (d', 0%Z) /\ sets [(k, value_of u g v)] d d'.
Proof.
  intros G Nv F <- W <-. destruct (allowed_lemma d u MOD_DM n c (Some (v ++ [NUL])) f G dm_nul W) as (d' & E & R1 & _ & R2).
  exists d'. unfold buf_set. rewrite string_ok by exact Nv. cbn [obind]. unfold str_set. rewrite E. cbn [obind]. split; [reflexivity|]. intros k. cbn [find fst].
  destruct (key_eqb_spec (record_key u MOD_DM n c) k) as [<-|N].
  - rewrite R1. reflexivity.
  - apply R2; [congruence|]. intros _. left. exact F.
Qed.
Lemma sets_wr l d d' k : sets l d d' -> writable d MOD_DM k -> ~ In k (map fst l) -> writable d' MOD_DM k.
Proof. intros S W N o. rewrite (S k), Lvm_Proofs.find_none by exact N. apply W. Qed.
Lemma g_uuid : good_name NS_DEVMOD K_UUID. Proof. split; [discriminate|split; discriminate]. Qed.
Lemma g_name : good_name NS_DEVMOD K_NAME. Proof. split; [discriminate|split; discriminate]. Qed.
Lemma g_uuuid : good_name NS_UDEV U_UUID. Proof. split; [discriminate|split; discriminate]. Qed.
Lemma g_uname : good_name NS_UDEV U_NAME. Proof. split; [discriminate|split; discriminate]. Qed.
Lemma g_susp : good_name NS_UDEV U_SUSPENDED. Proof. split; [discriminate|split; discriminate]. Qed.
Lemma devmod_inj i m a b : devmod_key i m a = devmod_key i m b -> a = b.
Proof. unfold devmod_key. intros H. do 2 apply app_inv_head in H. apply app_inv_head in H. apply app_inv_head in H. apply app_inv_head in H. exact H. Qed.
Lemma udev_inj i a b : udev_var i a = udev_var i b -> a = b.
Proof. unfold udev_var. intros H. do 3 apply app_inv_head in H. exact H. Qed.
Ltac key_ne := cbn [map fst In]; let X := fresh in intros X; repeat (destruct X as [X|X]); try contradiction; first [discriminate X | apply devmod_inj in X; discriminate X | apply udev_inj in X; discriminate X].
Lemma ends_no_list s t : length t = 4 -> t <> B "#GMB" -> t <> B "#GIN" -> no_list (s ++ t).
Proof.
  intros L A C p. unfold members_of, in_of. split; intros E; (apply app_inj_r in E || (assert (E' : length s = length p) by (apply (f_equal (@length _)) in E; rewrite !app_length, L in E; cbn in E; lia));
    (revert E; revert p E'; induction s as [|x s IH]; intros [|y p] E' E; try discriminate E'; cbn [app] in E; [congruence|injection E as _ E; exact (IH p ltac:(cbn in E'; lia) E)])).
Qed.
Lemma devmod_no_list i m c s t : c = s ++ t -> length t = 4 -> t <> B "#GMB" -> t <> B "#GIN" -> no_list (devmod_key i m c).
Proof. intros -> L A C. unfold devmod_key. rewrite !app_assoc. apply ends_no_list; assumption. Qed.
Lemma udev_no_list i c s t : c = s ++ t -> length t = 4 -> t <> B "#GMB" -> t <> B "#GIN" -> no_list (udev_var i c).
Proof. intros -> L A C. unfold udev_var. rewrite !app_assoc. apply ends_no_list; assumption. Qed.
Lemma prop_no_list u k : In k (prop_keys u) -> no_list k.
Proof.
  unfold prop_keys. cbn [map app In]. intros [<-|[<-|[<-|[<-|[<-|[]]]]]].
  - apply devmod_no_list with (s := []) (t := B "uuid"); [reflexivity|reflexivity|discriminate|discriminate].
  - apply devmod_no_list with (s := []) (t := B "name"); [reflexivity|reflexivity|discriminate|discriminate].
  - apply udev_no_list with (s := B "DM_") (t := B "UUID"); [reflexivity|reflexivity|discriminate|discriminate].
  - apply udev_no_list with (s := B "DM_") (t := B "NAME"); [reflexivity|reflexivity|discriminate|discriminate].
  - apply udev_no_list with (s := B ".DM_SUSPE") (t := B "NDED"); [reflexivity|reflexivity|discriminate|discriminate].
Qed.
Lemma records_keys u uuid name susp k : In k (map fst (prop_records u uuid name susp)) -> In k (prop_keys u).
Proof. unfold prop_records, prop_keys. destruct (length uuid =? 0); cbn [app map fst In]; tauto. Qed.

Definition put_all (d : db) (u : ucmd) (uuid name susp : bytes) (n : bool) : outcome (db * Z) :=
  let! (d, r) := buf_set d u NS_DEVMOD K_UUID uuid (N.lor FL_SYNC FL_SUB_RD) in
  if (r <? 0)%Z then Ok (d, (-1)%Z) else
  let! (d, r) := buf_set d u NS_DEVMOD K_NAME name (N.lor FL_SYNC FL_SUB_RD) in
  if (r <? 0)%Z then Ok (d, (-1)%Z) else
  let! (d, r) := if n then buf_set d u NS_UDEV U_UUID uuid FL_SYNC_P else Ok (d, 0%Z) in
  if (r <? 0)%Z then Ok (d, (-1)%Z) else
  let! (d, r) := buf_set d u NS_UDEV U_NAME name FL_SYNC_P in
  if (r <? 0)%Z then Ok (d, (-1)%Z) else
  let! (d, r) := buf_set d u NS_UDEV U_SUSPENDED susp FL_SYNC_P in
  if (r <? 0)%Z then Ok (d, (-1)%Z) else Ok (d, 0%Z).
Lemma put_all_ok d u uuid name susp r1 r2 r3 : ~ In NUL uuid -> ~ In NUL name -> ~ In NUL susp -> (forall k, In k (prop_keys u) -> writable d MOD_DM k) ->
  exists d', put_all d u (uuid ++ NUL :: r1) (name ++ NUL :: r2) (susp ++ NUL :: r3) (negb (length uuid =? 0)) = Ok (d', 0%Z) /\ sets (prop_records u uuid name susp) d d'.
Proof.
  intros N1 N2 N3 W. unfold prop_keys in W. cbn [map app] in W.
  set (k1 := devmod_key (uid u) DM (B "uuid")) in *. set (k2 := devmod_key (uid u) DM (B "name")) in *. set (k3 := udev_var (number u) (B "DM_UUID")) in *.
  set (k4 := udev_var (number u) (B "DM_NAME")) in *. set (k5 := udev_var (number u) (B ".DM_SUSPENDED")) in *.
  assert (W1 : writable d MOD_DM k1) by (apply W; cbn; auto). assert (W2 : writable d MOD_DM k2) by (apply W; cbn; auto). assert (W3 : writable d MOD_DM k3) by (apply W; cbn; auto).
  assert (W4 : writable d MOD_DM k4) by (apply W; cbn; auto). assert (W5 : writable d MOD_DM k5) by (apply W; cbn; auto 6). clear W.
  unfold put_all, prop_records. fold k1 k2 k3 k4 k5.
  destruct (buf_set_ok d u NS_DEVMOD K_UUID uuid r1 (N.lor FL_SYNC FL_SUB_RD) k1 66 g_uuid N1 eq_refl eq_refl W1 eq_refl) as (d1 & E1 & S1).
  rewrite E1. cbn [obind]. change (0 <? 0)%Z with false. cbv iota.
  assert (W2' : writable d1 MOD_DM k2) by (apply (sets_wr _ _ _ _ S1 W2); unfold k1, k2; key_ne).
  assert (W3' : writable d1 MOD_DM k3) by (apply (sets_wr _ _ _ _ S1 W3); unfold k1, k3; key_ne).
  assert (W4' : writable d1 MOD_DM k4) by (apply (sets_wr _ _ _ _ S1 W4); unfold k1, k4; key_ne).
  assert (W5' : writable d1 MOD_DM k5) by (apply (sets_wr _ _ _ _ S1 W5); unfold k1, k5; key_ne). clear W1 W2 W3 W4 W5.
  destruct (buf_set_ok d1 u NS_DEVMOD K_NAME name r2 (N.lor FL_SYNC FL_SUB_RD) k2 66 g_name N2 eq_refl eq_refl W2' eq_refl) as (d2 & E2 & S2).
  rewrite E2. cbn [obind]. change (0 <? 0)%Z with false. cbv iota.
  assert (W3 : writable d2 MOD_DM k3) by (apply (sets_wr _ _ _ _ S2 W3'); unfold k2, k3; key_ne).
  assert (W4 : writable d2 MOD_DM k4) by (apply (sets_wr _ _ _ _ S2 W4'); unfold k2, k4; key_ne).
  assert (W5 : writable d2 MOD_DM k5) by (apply (sets_wr _ _ _ _ S2 W5'); unfold k2, k5; key_ne). clear W2' W3' W4' W5'.
  assert (T : forall d, writable d MOD_DM k4 -> writable d MOD_DM k5 -> exists d',
    (let! (d, r) := buf_set d u NS_UDEV U_NAME (name ++ NUL :: r2) FL_SYNC_P in
     if (r <? 0)%Z then Ok (d, (-1)%Z) else
     let! (d, r) := buf_set d u NS_UDEV U_SUSPENDED (susp ++ NUL :: r3) FL_SYNC_P in
     if (r <? 0)%Z then Ok (d, (-1)%Z) else Ok (d, 0%Z)) = Ok (d', 0%Z) /\ sets [(k4, value_of u 6 name); (k5, value_of u 6 susp)] d d').
  { clear - N2 N3. intros d W4 W5.
    destruct (buf_set_ok d u NS_UDEV U_NAME name r2 FL_SYNC_P k4 6 g_uname N2 eq_refl eq_refl W4 eq_refl) as (d1 & E1 & S1).
    rewrite E1. cbn [obind]. change (0 <? 0)%Z with false. cbv iota.
    assert (W5' : writable d1 MOD_DM k5) by (apply (sets_wr _ _ _ _ S1 W5); unfold k4, k5; key_ne).
    destruct (buf_set_ok d1 u NS_UDEV U_SUSPENDED susp r3 FL_SYNC_P k5 6 g_susp N3 eq_refl eq_refl W5' eq_refl) as (d2 & E2 & S2).
    rewrite E2. cbn [obind]. exists d2. split; [reflexivity|]. apply (sets_cons _ _ _ _ _ _ S1 S2). unfold k4, k5. key_ne. }
  destruct (length uuid =? 0) eqn:Lu; cbn [negb obind app].
  - change (0 <? 0)%Z with false. cbv iota. destruct (T d2 W4 W5) as (d3 & E3 & S3). exists d3. split; [exact E3|].
    apply (sets_cons _ _ _ _ _ _ S1); [apply (sets_cons _ _ _ _ _ _ S2 S3); unfold k2, k4, k5; key_ne|unfold k1, k2, k4, k5; key_ne].
  - destruct (buf_set_ok d2 u NS_UDEV U_UUID uuid r1 FL_SYNC_P k3 6 g_uuuid N1 eq_refl eq_refl W3 eq_refl) as (d3 & E3 & S3).
    rewrite E3. cbn [obind]. change (0 <? 0)%Z with false. cbv iota.
    assert (W4' : writable d3 MOD_DM k4) by (apply (sets_wr _ _ _ _ S3 W4); unfold k3, k4; key_ne).
    assert (W5' : writable d3 MOD_DM k5) by (apply (sets_wr _ _ _ _ S3 W5); unfold k3, k5; key_ne).
    destruct (T d3 W4' W5') as (d4 & E4 & S4). exists d4. split; [exact E4|].
    apply (sets_cons _ _ _ _ _ _ S1); [apply (sets_cons _ _ _ _ _ _ S2); [apply (sets_cons _ _ _ _ _ _ S3 S4); unfold k3, k4, k5; key_ne|unfold k2, k3, k4, k5; key_ne]|unfold k1, k2, k3, k4, k5; key_ne].
Qed.

Lemma props_unfold d u fu fn fs bu bn bs uuid name susp r1 r2 r3 :
  get_sysfs_value fu bu = Ok (0%Z, uuid ++ NUL :: r1) -> get_sysfs_value fn bn = Ok (0%Z, name ++ NUL :: r2) -> get_sysfs_value fs bs = Ok (0%Z, susp ++ NUL :: r3) ->
  ~ In NUL uuid -> ~ In NUL name -> ~ In NUL susp ->
  get_sysfs_props d u fu fn fs bu bn bs =
    if (length name =? 0) || (length susp =? 0) then Ok (d, (-1)%Z) else
    let! (d, r) := if negb (length uuid =? 0) then gstep d (AliasAdd u MOD_DM ALS_UUID uuid) else Ok (d, 0%Z) in
    if (r <? 0)%Z then Ok (d, (-1)%Z) else
    let! (d, r) := gstep d (AliasAdd u MOD_DM ALS_NAME name) in
    if (r <? 0)%Z then Ok (d, (-1)%Z) else put_all d u (uuid ++ NUL :: r1) (name ++ NUL :: r2) (susp ++ NUL :: r3) (negb (length uuid =? 0)).
Proof.
  intros E1 E2 E3 N1 N2 N3. unfold get_sysfs_props. rewrite E1. cbn [obind]. change (0 <? 0)%Z with false. cbv iota. rewrite E2. cbn [obind]. change (0 <? 0)%Z with false. cbv iota.
  rewrite set_is by exact N2. cbn [obind]. rewrite Bool.negb_involutive. destruct (length name =? 0); [reflexivity|]. cbn [orb].
  rewrite E3. cbn [obind]. change (0 <? 0)%Z with false. cbv iota. rewrite set_is by exact N3. cbn [obind]. rewrite Bool.negb_involutive. destruct (length susp =? 0); [reflexivity|].
  rewrite set_is by exact N1. cbn [obind]. unfold buf_alias. rewrite !string_ok by assumption. cbn [obind]. reflexivity.
Qed.
Lemma len0 (v : bytes) : (length v =? 0) = true <-> v = [].
Proof. destruct v; cbn; split; congruence. Qed.

Lemma props_lemma d0 l d u fu fn fs bu bn bs uuid name susp :
  well_formed d0 -> fresh d0 -> Forall good_op l -> gsteps d0 l = Ok d -> good_dev u ->
  length bu = 129 -> length bn = 128 -> length bs = 10 ->
  shows 128 fu (Some uuid) -> shows 127 fn (Some name) -> shows 9 fs (Some susp) -> name <> [] -> susp <> [] ->
  (forall k, In k (prop_keys u) -> writable d DM k) ->
  exists d', get_sysfs_props d u fu fn fs bu bn bs = Ok (d', 0%Z)
    /\ (forall k r, In (k, r) (prop_records u uuid name susp) -> recs d' k = Some r)
    /\ (forall x, ~ In x (map fst (prop_records u uuid name susp)) -> no_list x -> recs d' x = recs d x)
    /\ (forall x, has_alias d' (B "name") name x <-> has_alias d (B "name") name x \/ x = this_dev u)
    /\ (uuid <> [] -> forall x, has_alias d' (B "uuid") uuid x <-> has_alias d (B "uuid") uuid x \/ x = this_dev u)
    /\ (forall g x, group_item g -> g <> alias_item DM (B "name") name -> (uuid <> [] -> g <> alias_item DM (B "uuid") uuid) ->
          (In x (members d' (members_of g)) <-> In x (members d (members_of g)))).
Proof.
  intros Wf Fr Go Gs Gd L1 L2 L3 S1 S2 S3 Nn Ns Wr.
  destruct (value_shows fu _ _ bu S1 ltac:(lia) ltac:(lia)) as (r1 & E1 & N1).
  destruct (value_shows fn _ _ bn S2 ltac:(lia) ltac:(lia)) as (r2 & E2 & N2).
  destruct (value_shows fs _ _ bs S3 ltac:(lia) ltac:(lia)) as (r3 & E3 & N3).
  rewrite (props_unfold d u _ _ _ _ _ _ _ _ _ _ _ _ E1 E2 E3 N1 N2 N3). clear E1 E2 E3.
  replace (length name =? 0) with false by (symmetry; apply not_true_iff_false; rewrite len0; exact Nn).
  replace (length susp =? 0) with false by (symmetry; apply not_true_iff_false; rewrite len0; exact Ns). cbn [orb].
  assert (A : exists l1 d1, (if negb (length uuid =? 0) then gstep d (AliasAdd u MOD_DM ALS_UUID uuid) else Ok (d, 0%Z)) = Ok (d1, 0%Z) /\ Forall good_op l1 /\ gsteps d0 l1 = Ok d1 /\ keeps d d1
    /\ (uuid <> [] -> forall x, has_alias d1 (B "uuid") uuid x <-> has_alias d (B "uuid") uuid x \/ x = this_dev u)
    /\ (forall g x, group_item g -> (uuid <> [] -> g <> alias_item DM (B "uuid") uuid) -> (In x (members d1 (members_of g)) <-> In x (members d (members_of g))))).
  { destruct (length uuid =? 0) eqn:Lu; cbn [negb].
    - apply len0 in Lu. exists l, d. repeat split; try assumption; try tauto.
    - assert (Nu : uuid <> []) by (rewrite <- len0; congruence).
      destruct (alias_edit_lemma d0 l d u MOD_DM ALS_UUID uuid true Wf Fr Go Gs Gd ltac:(discriminate) Nu) as (d1 & E & M & O).
      exists (l ++ [AliasAdd u MOD_DM ALS_UUID uuid]), d1. split; [exact E|]. split; [apply Forall_app; split; [exact Go|constructor; [exact Gd|constructor]]|].
      split. { clear - Gs E. revert d0 Gs. induction l as [|o l IH]; intros d0 Gs; cbn [app gsteps] in *; [injection Gs as ->; rewrite E; reflexivity|]. destruct (gstep d0 o) as [[dd z]|]; [|discriminate]. cbn [obind] in *. apply IH, Gs. }
      split; [exact (step_keeps _ _ _ _ E)|]. split; [intros _ x; exact (M x)|]. intros g x G1 G2. exact (O g x G1 (G2 Nu)). }
  destruct A as (l1 & d1 & -> & Go1 & Gs1 & K1 & M1 & O1). cbn [obind]. change (0 <? 0)%Z with false. cbv iota.
  destruct (alias_edit_lemma d0 l1 d1 u MOD_DM ALS_NAME name true Wf Fr Go1 Gs1 Gd ltac:(discriminate) Nn) as (d2 & E2 & M2 & O2). cbn [negb] in M2.
  rewrite E2. cbn [obind]. change (0 <? 0)%Z with false. cbv iota. pose proof (keeps_trans _ _ _ K1 (step_keeps _ _ _ _ E2)) as K2.
  destruct (put_all_ok d2 u uuid name susp r1 r2 r3 N1 N2 N3) as (d' & E & S).
  { intros k Hk o Ho. rewrite (proj1 (K2 k (prop_no_list u k Hk))) in Ho. exact (Wr k Hk o Ho). }
  exists d'. split; [exact E|]. rename S into St.
  assert (Same : forall k, ~ In k (map fst (prop_records u uuid name susp)) -> recs d' k = recs d2 k) by (intros k Hk; rewrite (St k), Lvm_Proofs.find_none by exact Hk; reflexivity).
  assert (Ml : forall g, members d' (members_of g) = members d2 (members_of g)).
  { intros g. unfold members. rewrite Same; [reflexivity|]. intros X. exact (proj1 (prop_no_list u _ (records_keys _ _ _ _ _ X) g) eq_refl). }
  split; [|split; [|split; [|split]]].
  - intros k r Hk. rewrite (St k). assert (D : NoDup (map fst (prop_records u uuid name susp))).
    { unfold prop_records. destruct (length uuid =? 0); cbn [app map fst]; repeat (constructor; [key_ne|]); constructor. }
    revert D Hk. clear. generalize (prop_records u uuid name susp) as q. induction q as [|[a b] q IH]; intros D H; [destruct H|]. cbn [map fst find] in *. inversion D as [|? ? Ni D']; subst.
    destruct (key_eqb_spec a k) as [->|N].
    + destruct H as [H|H]; [injection H as ->; reflexivity|]. destruct Ni. exact (in_map fst _ _ H).
    + destruct H as [H|H]; [injection H as -> _; congruence|]. exact (IH D' H).
  - intros x H1 H2. rewrite Same by exact H1. exact (proj1 (K2 x H2)).
  - intros x. unfold has_alias. rewrite Ml. change (In x (members d2 (members_of (alias_item DM (B "name") name)))) with (In x (members d2 (members_of (alias_item MOD_DM ALS_NAME name)))).
    rewrite (M2 x). change (alias_item MOD_DM ALS_NAME name) with (alias_item DM (B "name") name). rewrite (O1 (alias_item DM (B "name") name) x); [reflexivity| |].
    + eexists. left. unfold alias_item. reflexivity.
    + intros _ X. unfold alias_item in X. discriminate X.
  - intros Nu x. unfold has_alias. rewrite Ml. rewrite (O2 (alias_item DM (B "uuid") uuid) x); [exact (M1 Nu x)| |].
    + eexists. left. unfold alias_item. reflexivity.
    + intros X. discriminate X.
  - intros g x G1 G2 G3. rewrite Ml. rewrite (O2 g x G1 G2). exact (O1 g x G1 G3).
Qed.

Lemma props_fail d u fu fn fs bu bn bs ou on os : length bu = 129 -> length bn = 128 -> length bs = 10 -> shows 128 fu ou -> shows 127 fn on -> shows 9 fs os ->
  (ou = None \/ on = None \/ on = Some [] \/ os = None \/ os = Some []) -> get_sysfs_props d u fu fn fs bu bn bs = Ok (d, (-1)%Z).
Proof.
  intros L1 L2 L3 S1 S2 S3 C. pose proof (value_shows fu _ _ bu S1 ltac:(lia) ltac:(lia)) as A1. pose proof (value_shows fn _ _ bn S2 ltac:(lia) ltac:(lia)) as A2. pose proof (value_shows fs _ _ bs S3 ltac:(lia) ltac:(lia)) as A3.
  destruct ou as [uuid|].
  2:{ destruct A1 as (r & b & E & R). unfold get_sysfs_props. rewrite E. cbn [obind]. replace (r <? 0)%Z with true by lia. reflexivity. }
  destruct A1 as (r1 & E1 & N1). destruct on as [name|].
  2:{ destruct A2 as (r & b & E & R). unfold get_sysfs_props. rewrite E1. cbn [obind]. change (0 <? 0)%Z with false. cbv iota. rewrite E. cbn [obind]. replace (r <? 0)%Z with true by lia. reflexivity. }
  destruct A2 as (r2 & E2 & N2). destruct os as [susp|].
  2:{ destruct A3 as (r & b & E & R). unfold get_sysfs_props. rewrite E1. cbn [obind]. change (0 <? 0)%Z with false. cbv iota. rewrite E2. cbn [obind]. change (0 <? 0)%Z with false. cbv iota.
      rewrite set_is by exact N2. cbn [obind]. destruct (negb (negb _)); [reflexivity|]. rewrite E. cbn [obind]. replace (r <? 0)%Z with true by lia. reflexivity. }
  destruct A3 as (r3 & E3 & N3). rewrite (props_unfold d u _ _ _ _ _ _ _ _ _ _ _ _ E1 E2 E3 N1 N2 N3).
  destruct C as [C|[C|[C|[C|C]]]]; try discriminate C; injection C as ->; cbn [length Nat.eqb orb]; [reflexivity|]. rewrite orb_true_r. reflexivity.
Qed.

Lemma lvm_reads_of d u k v : recs d k = Some (value_of u 66 v) -> ~ In NUL v -> lvm_reads d k v.
Proof.
  intros H N. exists (value_of u 66 v). split; [exact H|]. split; [exact dm_nul|]. split; [|split; [exact N|reflexivity]].
  apply may_read_match; [exact dm_nul|cbv; intuition discriminate|]. replace (mod_match (r_owner (value_of u 66 v)) (B "/type/dm/dm_sub/lvm")) with MOD_SUB_MATCH by (vm_compute; reflexivity). reflexivity.
Qed.
Lemma dm_reads_of d u k f v : recs d k = Some (value_of u f v) -> ~ In NUL v -> reads_text d DM k v.
Proof.
  intros H N. split; [exact N|]. exists (value_of u f v). split; [exact H|]. split; [exact dm_nul|]. split; [|reflexivity].
  apply may_read_match; [exact dm_nul|exact dm_nul|]. replace (mod_match (r_owner (value_of u f v)) DM) with MOD_MATCH by (vm_compute; reflexivity). exact I.
Qed.
Lemma shows_nul n f v : shows n f (Some v) -> ~ In NUL v.
Proof.
  assert (F : forall m, ~ In NUL m -> ~ In NUL (firstn n m)) by (intros m A X; apply A; rewrite <- (firstn_skipn n m); apply in_or_app; left; exact X).
  intros H. inversion H; subst; apply F; assumption.
Qed.
Lemma lvm_key_ne u k : In k (component_keys u) -> ~ In k (prop_keys u) /\ no_list k.
Proof.
  unfold component_keys, prop_keys. cbn [map app In].
  assert (X : forall a b, devmod_key (uid u) (B "/type/dm/dm_sub/lvm") a <> devmod_key (uid u) DM b).
  { intros a b E. unfold devmod_key, DM in E. do 3 apply app_inv_head in E. discriminate E. }
  intros [<-|[<-|[<-|[<-|[<-|[<-|[]]]]]]]; (split;
    [let Y := fresh in intros Y; repeat (destruct Y as [Y|Y]); try contradiction; try discriminate Y; try (apply udev_inj in Y; discriminate Y); symmetry in Y; exact (X _ _ Y)|]).
  - apply udev_no_list with (s := B "DM_VG_") (t := B "NAME"); [reflexivity|reflexivity|discriminate|discriminate].
  - apply udev_no_list with (s := B "DM_LV_") (t := B "NAME"); [reflexivity|reflexivity|discriminate|discriminate].
  - apply udev_no_list with (s := B "DM_LV_L") (t := B "AYER"); [reflexivity|reflexivity|discriminate|discriminate].
  - apply devmod_no_list with (s := B "vg_") (t := B "name"); [reflexivity|reflexivity|discriminate|discriminate].
  - apply devmod_no_list with (s := B "lv_") (t := B "name"); [reflexivity|reflexivity|discriminate|discriminate].
  - apply devmod_no_list with (s := B "lv_l") (t := B "ayer"); [reflexivity|reflexivity|discriminate|discriminate].
Qed.
Lemma volume_lemma d0 l d u fu fn fs bu bn bs uuid vg lv layer susp :
  well_formed d0 -> fresh d0 -> Forall good_op l -> gsteps d0 l = Ok d -> good_dev u ->
  length bu = 129 -> length bn = 128 -> length bs = 10 ->
  shows 128 fu (Some uuid) -> shows 127 fn (Some (lvm_name vg lv layer)) -> shows 9 fs (Some susp) -> susp <> [] ->
  (forall k, In k (prop_keys u) -> writable d DM k) ->
  lv_names vg lv layer -> (forall k, In k (component_keys u) -> writable d LVM k) ->
  exists d', get_sysfs_props d u fu fn fs bu bn bs = Ok (d', 0%Z)
    /\ (exists b, lvm_match_current d' u = Ok b /\ (b = true <-> exists r, uuid = B "LVM-" ++ r))
    /\ (exists d2, lvm_scan_a_init d' u = Ok (d2, 0%Z) /\ sets (component_records u vg lv layer) d' d2)
    /\ reads_text d' DM (suspended_var u) susp.
Proof.
  intros Wf Fr Go Gs Gd L1 L2 L3 S1 S2 S3 Ns Wr Hn Wc.
  assert (Nn : lvm_name vg lv layer <> []). { unfold lvm_name. intros E. apply app_eq_nil in E. destruct E as (_ & E). discriminate E. }
  destruct (props_lemma d0 l d u fu fn fs bu bn bs uuid _ susp Wf Fr Go Gs Gd L1 L2 L3 S1 S2 S3 Nn Ns Wr) as (d' & E & R & O & _).
  exists d'. split; [exact E|]. split; [|split].
  - destruct (current_lemma d' u) as (_ & C). apply C. apply (lvm_reads_of _ u); [|exact (shows_nul _ _ _ S1)]. apply R. left. reflexivity.
  - apply stored_names_lemma; [exact Hn| |].
    + apply (lvm_reads_of _ u); [|exact (shows_nul _ _ _ S2)]. apply R. right. left. reflexivity.
    + intros k Hk o Ho. destruct (lvm_key_ne u k Hk) as (A & C). rewrite O in Ho; [exact (Wc k Hk o Ho)| |exact C]. intros X. exact (A (records_keys _ _ _ _ _ X)).
  - apply (dm_reads_of _ u _ 6); [|exact (shows_nul _ _ _ S3)]. apply R. unfold prop_records. apply in_or_app. right. apply in_or_app. right. right. left. reflexivity.
Qed.
Lemma rename_lemma d0 l d u fu fn fs bu bn bs uuid name susp old :
  well_formed d0 -> fresh d0 -> Forall good_op l -> gsteps d0 l = Ok d -> good_dev u ->
  length bu = 129 -> length bn = 128 -> length bs = 10 ->
  shows 128 fu (Some uuid) -> shows 127 fn (Some name) -> shows 9 fs (Some susp) -> name <> [] -> susp <> [] ->
  (forall k, In k (prop_keys u) -> writable d DM k) ->
  old <> name -> has_alias d (B "name") old (this_dev u) ->
  exists d', get_sysfs_props d u fu fn fs bu bn bs = Ok (d', 0%Z) /\ has_alias d' (B "name") name (this_dev u) /\ has_alias d' (B "name") old (this_dev u).
Proof.
  intros Wf Fr Go Gs Gd L1 L2 L3 S1 S2 S3 Nn Ns Wr No Ha.
  destruct (props_lemma d0 l d u fu fn fs bu bn bs uuid _ susp Wf Fr Go Gs Gd L1 L2 L3 S1 S2 S3 Nn Ns Wr) as (d' & E & _ & _ & A & _ & O).
  exists d'. split; [exact E|]. split; [apply A; right; reflexivity|]. unfold has_alias. apply O; [| | |exact Ha].
  - eexists. left. unfold alias_item. reflexivity.
  - unfold alias_item. intros X. do 5 apply app_inv_head in X. apply app_inv_tail in X. congruence.
  - intros _ X. discriminate X.
Qed.
Lemma init_fail s u subs fu fn fs bu bn bs ou on os : length bu = 129 -> length bn = 128 -> length bs = 10 -> shows 128 fu ou -> shows 127 fn on -> shows 9 fs os ->
  (ou = None \/ on = None \/ on = Some [] \/ os = None \/ os = Some []) -> dm_scan_a_init s u subs fu fn fs bu bn bs = Ok (s, None, (-1)%Z).
Proof. intros L1 L2 L3 S1 S2 S3 C. unfold dm_scan_a_init. rewrite (props_fail _ _ _ _ _ _ _ _ _ _ _ L1 L2 L3 S1 S2 S3 C). destruct s; reflexivity. Qed.
