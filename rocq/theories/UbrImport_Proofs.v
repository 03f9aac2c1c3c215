From Verif Require Import Base Kvs_Model UbrKey_Model UbrKey_Spec UbrKey_Proofs UbrDb_Model UbrPerm_Proofs UbrRec_Model UbrDelta_Model UbrDelta_Spec UbrDelta_Proofs
  UbrStack_Model UbrStack_Spec UbrStack_Proofs UbrScan_Model UbrScan_Spec UbrScan_Proofs UbrDevId_Model UbrDevId_Spec UbrDevId_Proofs UbrImport_Model UbrImport_Spec.
Local Open Scope nat_scope.

(* The states *)
Lemma no_index d u c v fl d' z o : has fl FL_SYNC = false -> do_kv_set d u OWNER_CORE None NS_DEVICE c (Some v) fl false = Ok (d', z, o) ->
  forall x, indexed d x = false -> indexed d' x = false.
Proof.
  intros F E x Hx. unfold do_kv_set in E. rewrite (proj2 (Z.ltb_ge _ 0)) in E.
  2: { destruct (ns_eqb NS_DEVICE NS_UDEV && key_eqb OWNER_CORE OWNER_CORE); [lia|]. pose proof (global_nonneg d OWNER_CORE None NS_DEVICE c) as G. lia. }
  unfold kvs_set, cb_write in E. cbn [r_owner ns_eqb] in E. rewrite core_allowed in E. cbv beta iota zeta in E. injection E as <- _ _.
  unfold manage_kv_index, check_kv_index_needed. cbn [r_flags]. rewrite F, !andb_false_r. cbn [negb]. rewrite andb_true_r.
  destruct (match recs d _ with Some r => has (r_flags r) FL_SYNC | None => false end).
  - change (KV_INDEX_REMOVE =? KV_INDEX_ADD)%Z with false. change (KV_INDEX_REMOVE =? KV_INDEX_REMOVE)%Z with true. cbv iota. cbn [indexed]. unfold mark. destruct (key_eqb _ _); [reflexivity|exact Hx].
  - exact Hx.
Qed.
Lemma ready_sync d u : base d ->
  exists d', set_ready (Scan d A_INIT RDY_UNDEFINED RES_UNDEFINED) u OWNER_CORE RDY_UNPROCESSED true = Ok (Scan d' A_INIT RDY_UNPROCESSED RES_UNDEFINED, 0%Z) /\ base d'
    /\ members d' (ready_key (dev_id u)) = [le 4 RDY_UNPROCESSED] /\ (forall x, indexed d x = false -> indexed d' x = false)
    /\ forall x, x <> ready_key (dev_id u) -> x <> "~"%char :: ready_key (dev_id u) -> same_at d d' x.
Proof.
  intros Ba. unfold set_ready. cbn [sc_ready sc_phase sc_db sc_reserved]. change ((8 <? RDY_UNPROCESSED) || (8 <? RDY_UNDEFINED))%N with false. change (has (phase_flags A_INIT) CAP_RDY) with true.
  change (RDY_UNPROCESSED =? RDY_UNDEFINED)%N with false. change (ready_refused RDY_UNDEFINED RDY_UNPROCESSED) with false. cbn [negb].
  destruct (core_put d u NS_DEVICE K_READY (le 4 RDY_UNPROCESSED) (state_flags true) (or_introl eq_refl)) as (d' & r & E & Er & Ek & F).
  pose proof (no_index d u K_READY _ (state_flags true) d' 0%Z _ eq_refl E) as NI.
  rewrite E. cbn [obind]. rewrite state_at in Ek, F. change (B "::D:" ++ dev_id u ++ B ":::" ++ K_READY) with (ready_key (dev_id u)) in Ek, F.
  assert (M : members d' (ready_key (dev_id u)) = [le 4 RDY_UNPROCESSED]) by (unfold members; rewrite Ek; exact Er).
  assert (Fr : forall x, x <> ready_key (dev_id u) -> x <> "~"%char :: ready_key (dev_id u) -> same_at d d' x) by (intros x H1 H2; apply F; auto).
  exists d'. split; [reflexivity|]. split; [|split; [assumption|split; assumption]].
  eapply (base_put d d' (ready_key (dev_id u))); try eassumption; [reflexivity|].
  unfold ready_key. change (B "::D:" ++ dev_id u ++ B ":::#RDY") with (B "::D:" ++ dev_id u ++ B ":::" ++ B "#RDY"). rewrite app_assoc, app_assoc.
  apply tail_aside; [reflexivity|discriminate|discriminate].
Qed.
Lemma reserved_sync d u n : base d ->
  exists d', set_reserved (Scan d A_INIT n RES_UNDEFINED) u OWNER_CORE RES_UNPROCESSED true = Ok (Scan d' A_INIT n RES_UNPROCESSED, 0%Z) /\ base d'
    /\ members d' (reserved_key (dev_id u)) = [le 4 RES_UNPROCESSED] /\ (forall x, indexed d x = false -> indexed d' x = false)
    /\ forall x, x <> reserved_key (dev_id u) -> x <> "~"%char :: reserved_key (dev_id u) -> same_at d d' x.
Proof.
  intros Ba. unfold set_reserved. cbn [sc_ready sc_phase sc_db sc_reserved]. change ((4 <? RES_UNPROCESSED) || (4 <? RES_UNDEFINED))%N with false. change (has (phase_flags A_INIT) CAP_RES) with true.
  change (RES_UNPROCESSED =? RES_UNDEFINED)%N with false. change (reserved_refused RES_UNDEFINED RES_UNPROCESSED) with false. cbn [negb].
  destruct (core_put d u NS_DEVICE K_RESERVED (le 4 RES_UNPROCESSED) (state_flags true) (or_introl eq_refl)) as (d' & r & E & Er & Ek & F).
  pose proof (no_index d u K_RESERVED _ (state_flags true) d' 0%Z _ eq_refl E) as NI.
  rewrite E. cbn [obind]. rewrite state_at in Ek, F. change (B "::D:" ++ dev_id u ++ B ":::" ++ K_RESERVED) with (reserved_key (dev_id u)) in Ek, F.
  assert (M : members d' (reserved_key (dev_id u)) = [le 4 RES_UNPROCESSED]) by (unfold members; rewrite Ek; exact Er).
  assert (Fr : forall x, x <> reserved_key (dev_id u) -> x <> "~"%char :: reserved_key (dev_id u) -> same_at d d' x) by (intros x H1 H2; apply F; auto).
  exists d'. split; [reflexivity|]. split; [|split; [assumption|split; assumption]].
  eapply (base_put d d' (reserved_key (dev_id u))); try eassumption; [reflexivity|].
  unfold reserved_key. change (B "::D:" ++ dev_id u ++ B ":::#RES") with (B "::D:" ++ dev_id u ++ B ":::" ++ B "#RES"). rewrite app_assoc, app_assoc.
  apply tail_aside; [reflexivity|discriminate|discriminate].
Qed.

(* One write *)
Lemma write_sync d k h op new : h_owner h = OWNER_CORE -> sorted new -> sorted (members d k) ->
  exists d' s f, delta_write d k h op new true = DOk (d', 0%Z, s) /\ exact op (members d k) new (buf_items (d_plus s)) (buf_items (d_minus s)) f
    /\ members d' k = f /\ (forall x, x <> k -> recs d' x = recs d x) /\ indexed d' = indexed d.
Proof.
  intros Ow Sn So. unfold delta_write. rewrite Ow, core_allowed. cbn [Z.ltb Z.compare].
  destruct (step_lemma op (data_at d k) new) as (p & m & rr & f & Es & X & _); [rewrite members_data; exact So|exact Sn|].
  rewrite Es. cbn [d_final]. do 3 eexists. split; [reflexivity|]. cbn [d_plus d_minus items]. rewrite members_data in X. split; [exact X|].
  split; [|split; [intros x Nx; cbn [recs]; apply put_other, Nx|reflexivity]]. unfold members. cbn [recs]. rewrite put_same. reflexivity.
Qed.
Lemma sorted_no (l : list bytes) : (forall x, ~ In x l) -> l = [].
Proof. destruct l as [|x l]; [reflexivity|]. intros H. destruct (H x). left. reflexivity. Qed.
Lemma sorted_single (l : list bytes) y : sorted l -> (forall x, In x l <-> x = y) -> l = [y].
Proof. intros S H. apply sorted_ext; [exact S|apply sorted_one|]. intros x. rewrite H. cbn. intuition congruence. Qed.

(* One alias *)
Definition plus_alias (v : bytes) (m m' : bytes -> list bytes) (cat id : bytes) : Prop := forall k x, main_key k ->
  (In x (m' k) <-> In x (m k) \/ (k = alias_list cat id /\ x = dev_item v) \/ (k = in_of (dev_item v) /\ x = alias_item (B "/") cat id)).
Lemma plus_base d d' v cat id : no_colon v -> base d -> (forall k, main_key k -> sorted (members d' k)) -> (forall x, recs d' ("+"%char :: x) = recs d ("+"%char :: x) /\ recs d' ("-"%char :: x) = recs d ("-"%char :: x)) ->
  indexed d' = indexed d -> plus_alias v (members d) (members d') cat id -> base d'.
Proof.
  intros Nv ((W1 & W2 & W3) & (S1 & S2) & Fr) So Rc Ix A.
  assert (AG : group_item (alias_item (B "/") cat id)) by (eexists; left; reflexivity).
  split; [|split].
  - split; [exact So|]. split.
    + intros g x Gi H. apply (A _ _ (proj1 (group_main _ Gi))) in H as [H|[(_ & ->)|(Q & _)]]; [exact (W2 g x Gi H)|eauto|destruct (members_in_ne _ _ Q)].
    + intros uid x Nu H. apply (A (members_of (dev_item uid)) x eq_refl) in H as [H|[(Q & _)|(Q & _)]]; [exact (W3 uid x Nu H)| |destruct (members_in_ne _ _ Q)].
      rewrite <- alias_members in Q. apply members_inj in Q. destruct (group_dev _ _ AG (eq_sym Q)).
  - split.
    + intros g uid Gi Nu. rewrite (A _ _ (proj1 (group_main _ Gi))), (A (in_of (dev_item uid)) g eq_refl), (S1 g uid Gi Nu).
      rewrite <- alias_members. split.
      * intros [H|[(Q & Q')|(Q & _)]]; [left; exact H|right; right|destruct (members_in_ne _ _ Q)]. apply members_inj in Q. rewrite Q', Q. auto.
      * intros [H|[(Q & _)|(Q & ->)]]; [left; exact H|destruct (members_in_ne _ _ (eq_sym Q))|right; left]. apply in_inj in Q. auto.
    + intros uid i Nu Ni. rewrite (A (members_of (dev_item uid)) _ eq_refl), (A (in_of (dseq_item i)) _ eq_refl), (S2 uid i Nu Ni).
      rewrite <- alias_members. split.
      * intros [H|[(Q & _)|(Q & _)]]; [left; exact H|apply members_inj in Q; destruct (group_dev _ _ AG (eq_sym Q))|destruct (members_in_ne _ _ Q)].
      * intros [H|[(Q & _)|(Q & _)]]; [left; exact H|destruct (members_in_ne _ _ (eq_sym Q))|apply in_inj in Q; destruct (dev_dseq _ _ (eq_sym Q))].
  - intros k c Mk Hc. destruct (Rc k) as (R1 & R2). rewrite Ix. destruct Hc as [<-|[<-|[]]]; rewrite ?R1, ?R2; apply Fr; cbn; auto.
Qed.
Lemma alias_sync d u cat id : good_dev u -> base d ->
  exists d', add_alias_sync d u cat id = Ok (d', 0%Z) /\ base d' /\ plus_alias (dev_id u) (members d) (members d') cat id /\ indexed d' = indexed d.
Proof.
  intros Gu Ba. pose proof Ba as ((W1 & W2 & _) & (S1 & _) & _). unfold add_alias_sync, kv_delta_set_sync. rewrite uid_lemma, dev_prefix, alias_store. fold (this_dev u).
  assert (Nu : no_colon (str (uid_s (u_dev u)))) by apply opt_str, Gu.
  change (dev_id u) with (str (uid_s (u_dev u))). set (v := str (uid_s (u_dev u))) in *. change (this_dev u) with (dev_item v).
  assert (AG : group_item (alias_item (B "/") cat id)) by (eexists; left; reflexivity).
  assert (SY : In (dev_item v) (members d (alias_list cat id)) <-> In (alias_item (B "/") cat id) (members d (in_of (dev_item v)))) by (rewrite <- alias_members; apply S1; assumption).
  destruct (write_sync d (alias_list cat id) (core_hdr u FLAGS_NO_SYNC) OP_PLUS [dev_item v] eq_refl (sorted_one _) (W1 (alias_list cat id) eq_refl)) as (d1 & s & f & -> & (X1 & X2 & X3 & X4 & X5 & X6) & Mf & F1 & Ix1).
  change (0 <? 0)%Z with false. cbv iota.
  assert (Em : buf_items (d_minus s) = []). { apply sorted_no. intros x H. apply X6 in H. cbn [result] in H. tauto. }
  rewrite Em. cbn [rels_sync obind]. change (0 <? 0)%Z with false. cbv iota.
  destruct (bytes_dec (dev_item v) (members d (alias_list cat id))) as [Y|N].
  - assert (Ep : buf_items (d_plus s) = []). { apply sorted_no. intros x H. apply X5 in H as ([H|[<-|[]]] & H'); contradiction. }
    rewrite Ep. cbn [rels_sync obind]. change (0 <? 0)%Z with false. cbv iota. exists d1. split; [reflexivity|].
    assert (A : plus_alias v (members d) (members d1) cat id).
    { intros k x Mk. destruct (list_eq_dec ascii_dec k (alias_list cat id)) as [->|Nk].
      - rewrite Mf, X4. cbn [result In]. split; [intros [H|[H|[]]]; auto|]. intros [H|[(_ & ->)|(Q & _)]]; auto. destruct (list_not_in _ _ _ Q).
      - unfold members at 1. rewrite (F1 k Nk). fold (members d k). split; [auto|]. intros [H|[(Q & _)|(-> & ->)]]; [exact H|contradiction|apply SY, Y]. }
    split; [|split; [exact A|exact Ix1]]. apply (plus_base d d1 v cat id Nu Ba); auto.
    + intros k Mk. destruct (list_eq_dec ascii_dec k (alias_list cat id)) as [->|Nk]; [rewrite Mf; exact X3|]. unfold members. rewrite (F1 k Nk). apply (W1 k Mk).
    + intros x. split; apply F1; discriminate.
  - assert (Ep : buf_items (d_plus s) = [dev_item v]).
    { apply sorted_single; [exact X1|]. intros x. rewrite X5. cbn [result In]. split; [intros ([H|[H|[]]] & H'); [contradiction|auto]|]. intros ->. auto. }
    rewrite Ep. cbn [rels_sync obind]. rewrite (dev_relative (dev_spec v) v eq_refl Nu). unfold delta_set_sync, rels_sync.
    change (KeySpec (ks_extra (dev_spec v)) (ks_op (dev_spec v)) (ks_dom (dev_spec v)) (ks_ns (dev_spec v)) (Some v) (ks_id_cat (dev_spec v)) (ks_id (dev_spec v)) (ks_core (dev_spec v))) with (dev_spec v).
    rewrite dev_store, alias_key.
    assert (Nk0 : in_of (dev_item v) <> alias_list cat id) by (intros Q; destruct (list_not_in _ _ _ (eq_sym Q))).
    assert (M1 : members d1 (in_of (dev_item v)) = members d (in_of (dev_item v))) by (unfold members; rewrite (F1 _ Nk0); reflexivity).
    destruct (write_sync d1 (in_of (dev_item v)) (Hdr (h_seq (core_hdr u FLAGS_NO_SYNC)) FLAGS_NO_SYNC (h_gen (core_hdr u FLAGS_NO_SYNC)) (h_owner (core_hdr u FLAGS_NO_SYNC))) OP_PLUS [alias_item (B "/") cat id] eq_refl (sorted_one _)) as (d2 & s2 & f2 & -> & (_ & _ & Z3 & Z4 & _) & Mf2 & F2 & Ix2).
    { rewrite M1. apply (W1 (in_of (dev_item v)) eq_refl). }
    cbn [obind]. change (0 <? 0)%Z with false. cbv iota. cbn [obind]. exists d2. split; [reflexivity|].
    assert (A : plus_alias v (members d) (members d2) cat id).
    { intros k x Mk. destruct (list_eq_dec ascii_dec k (in_of (dev_item v))) as [->|Nk].
      - rewrite Mf2, Z4, M1. cbn [result In]. split; [intros [H|[H|[]]]; auto|]. intros [H|[(Q & _)|(_ & ->)]]; auto; contradiction.
      - unfold members at 1. rewrite (F2 k Nk). destruct (list_eq_dec ascii_dec k (alias_list cat id)) as [->|Nk'].
        + fold (members d1 (alias_list cat id)). rewrite Mf, X4. cbn [result In]. split; [intros [H|[H|[]]]; auto|]. intros [H|[(_ & ->)|(Q & _)]]; auto; contradiction.
        + rewrite (F1 k Nk'). fold (members d k). split; [auto|]. intros [H|[(Q & _)|(Q & _)]]; [exact H|contradiction|contradiction]. }
    split; [|split; [exact A|congruence]]. apply (plus_base d d2 v cat id Nu Ba); auto; [| |congruence].
    + intros k Mk. destruct (list_eq_dec ascii_dec k (in_of (dev_item v))) as [->|Nk]; [rewrite Mf2; exact Z3|]. unfold members. rewrite (F2 k Nk).
      destruct (list_eq_dec ascii_dec k (alias_list cat id)) as [->|Nk']; [fold (members d1 (alias_list cat id)); rewrite Mf; exact X3|]. rewrite (F1 k Nk'). apply (W1 k Mk).
    + intros x. rewrite !F2, !F1; [auto|discriminate..].
Qed.

(* One device *)
Definition unsent (d d' : db) : Prop := forall x, indexed d x = false -> indexed d' x = false.
Lemma ready_apart v k : (exists cat al, k = alias_list cat al) \/ (exists w, k = in_of (dev_item w)) -> ready_key v <> k /\ reserved_key v <> k.
Proof.
  intros [(cat & al & ->)|(w & ->)]; [split; discriminate|]. destruct (tail_aside (B "::D:" ++ v ++ B ":::") (B "#RDY")) as (_ & A1); [reflexivity|discriminate..|].
  destruct (tail_aside (B "::D:" ++ v ++ B ":::") (B "#RES")) as (_ & A2); [reflexivity|discriminate..|]. rewrite <- !app_assoc in A1, A2. split; [apply A1|apply A2].
Qed.
Lemma one_lemma d u num dsq name : num_s (u_dev u) = Some num -> good_dev u -> base d ->
  exists d', set_new_dev_sync (Scan d A_INIT RDY_UNDEFINED RES_UNDEFINED) u dsq name = Ok (d', 0%Z) /\ base d' /\ unsent d d'
    /\ members d' (ready_key (dev_id u)) = [le 4 RDY_UNPROCESSED] /\ members d' (reserved_key (dev_id u)) = [le 4 RES_UNPROCESSED]
    /\ forall k x, main_key k -> k <> ready_key (dev_id u) -> k <> reserved_key (dev_id u) ->
         (In x (members d' k) <-> In x (members d k) \/ entry (dev_id u) num dsq name k x).
Proof.
  intros En Gu Ba. unfold set_new_dev_sync.
  destruct (ready_sync d u Ba) as (d1 & -> & B1 & M1 & U1 & F1). cbn [obind]. change (0 <? 0)%Z with false. cbv iota.
  destruct (reserved_sync d1 u RDY_UNPROCESSED B1) as (d2 & -> & B2 & M2 & U2 & F2). cbn [obind sc_db]. change (0 <? 0)%Z with false. cbv iota.
  destruct (alias_sync d2 u AL_DSEQ dsq Gu B2) as (d3 & -> & B3 & A3 & I3). cbn [obind]. change (0 <? 0)%Z with false. cbv iota.
  destruct (alias_sync d3 u AL_DEVNO (Tok_Model.or_empty (num_s (u_dev u))) Gu B3) as (d4 & -> & B4 & A4 & I4). cbn [obind]. change (0 <? 0)%Z with false. cbv iota.
  rewrite En in A4. cbn [Tok_Model.or_empty] in A4.
  destruct (alias_sync d4 u AL_NAME name Gu B4) as (d5 & -> & B5 & A5 & I5). exists d5. split; [reflexivity|]. split; [exact B5|].
  split; [intros x Hx; rewrite I5, I4, I3; auto|].
  set (v := dev_id u) in *.
  assert (ALL : forall k x, main_key k -> (In x (members d5 k) <-> In x (members d2 k) \/ entry v num dsq name k x)).
  { intros k x Mk. rewrite (A5 k x Mk), (A4 k x Mk), (A3 k x Mk). unfold entry, alias_of. change AL_DSEQ with (B "dseq"). change AL_DEVNO with (B "devno"). change AL_NAME with (B "name"). split.
    - intros [[[H|H]|H]|H]; [auto|right..]; do 2 eexists; (split; [|exact H]); cbn [In]; auto.
    - intros [H|(cat & al & [H|[H|[H|[]]]] & H')]; [tauto|..]; injection H as <- <-; tauto. }
  assert (KEEP : forall k, main_key k -> (forall cat al, k <> alias_list cat al) -> k <> in_of (dev_item v) -> members d5 k = members d2 k).
  { intros k Mk N1 N2. apply sorted_ext; [apply B5, Mk|apply B2, Mk|]. intros x. rewrite (ALL k x Mk). split; [|auto].
    intros [H|(cat & al & _ & [(Q & _)|(Q & _)])]; [exact H|destruct (N1 _ _ Q)|contradiction]. }
  assert (NR : ready_key v <> reserved_key v) by (intros Q; apply app_inv_head, app_inv_head in Q; discriminate Q).
  assert (NA : forall k, main_key k -> k <> "~"%char :: ready_key v) by (intros k Mk ->; discriminate Mk).
  assert (NB : forall k, main_key k -> k <> "~"%char :: reserved_key v) by (intros k Mk ->; discriminate Mk).
  assert (AP : forall w, ready_key v <> in_of (dev_item w) /\ reserved_key v <> in_of (dev_item w)) by (intros w; apply ready_apart; right; eauto).
  split; [rewrite KEEP; [|reflexivity|intros; discriminate|apply AP]; rewrite <- M1; apply same_members, F2; [exact NR|apply NB; reflexivity]|].
  split; [rewrite KEEP; [exact M2|reflexivity|intros; discriminate|apply AP]|].
  intros k x Mk N1 N2. rewrite (ALL k x Mk). rewrite (same_members _ _ _ (F2 k N2 (NB k Mk))), (same_members _ _ _ (F1 k N1 (NA k Mk))). reflexivity.
Qed.

(* All of them *)
Lemma key_inj v w c : B "::D:" ++ v ++ B ":::" ++ c = B "::D:" ++ w ++ B ":::" ++ c -> v = w.
Proof. intros Q. apply app_inv_head in Q. rewrite !app_assoc in Q. apply app_inv_tail in Q. apply app_inv_tail in Q. exact Q. Qed.
Lemma rdy_inj v w : ready_key v = ready_key w -> v = w. Proof. apply (key_inj v w (B "#RDY")). Qed.
Lemma res_inj v w : reserved_key v = reserved_key w -> v = w. Proof. apply (key_inj v w (B "#RES")). Qed.
Lemma rdy_res v w : ready_key v <> reserved_key w.
Proof.
  intros Q. apply (f_equal (@rev _)) in Q. unfold ready_key, reserved_key in Q. rewrite !rev_app_distr in Q. discriminate Q.
Qed.
Definition imported (d d' : db) (l : list (option udev_dev)) : Prop :=
  (forall id num dsq name, described l id num dsq name -> members d' (ready_key id) = [le 4 RDY_UNPROCESSED] /\ members d' (reserved_key id) = [le 4 RES_UNPROCESSED])
  /\ forall k x, main_key k -> (forall id num dsq name, described l id num dsq name -> k <> ready_key id /\ k <> reserved_key id) ->
      (In x (members d' k) <-> In x (members d k) \/ exists id num dsq name, described l id num dsq name /\ entry id num dsq name k x).
Lemma described_cons x l id num dsq name : described (x :: l) id num dsq name <-> described [x] id num dsq name \/ described l id num dsq name.
Proof.
  unfold described. split.
  - intros (seq & n & partn & [H|H] & R); [left|right]; exists seq, n, partn; (split; [|exact R]); [left; exact H|exact H].
  - intros [(seq & n & partn & [H|[]] & R)|(seq & n & partn & H & R)]; exists seq, n, partn; (split; [|exact R]); [left; exact H|right; exact H].
Qed.
Lemma import_one_lemma d gen x : base d -> ids_good [x] ->
  exists d', import_one d gen x = Ok (d', 0%Z) /\ base d' /\ unsent d d' /\ imported d d' [x].
Proof.
  intros Ba G.
  assert (SK : (forall id num dsq name, ~ described [x] id num dsq name) -> base d /\ unsent d d /\ imported d d [x]).
  { intros N. split; [exact Ba|]. split; [intros y Hy; exact Hy|]. split; [intros id num dsq name D; destruct (N _ _ _ _ D)|]. intros k y Mk _. split; [auto|].
    intros [H|(id & num & dsq & name & D & _)]; [exact H|destruct (N _ _ _ _ D)]. }
  destruct x as [[[id|] [seq|] [name|] n partn]|]; cbn [import_one].
  2-9: exists d; (split; [reflexivity|]); apply SK; intros a b c e (? & ? & ? & [H|[]] & _); discriminate H.
  assert (D0 : described [Some (UdevDev (Some id) (Some seq) (Some name) n partn)] id (num_text n) (dsq_text seq partn) name).
  { exists seq, n, partn. split; [left; reflexivity|auto]. }
  assert (D1 : forall a b c e, described [Some (UdevDev (Some id) (Some seq) (Some name) n partn)] a b c e -> a = id /\ b = num_text n /\ c = dsq_text seq partn /\ e = name).
  { intros a b c e (q & m & p & [H|[]] & -> & ->). injection H as <- <- <- <- <-. auto. }
  destruct (one_lemma d (Ucmd (DevCtx (Some (num_text n)) (Some id)) 0 gen) (num_text n) (dsq_text seq partn) name eq_refl) as (d' & E & B' & U' & M1 & M2 & A); [exact (G _ _ _ _ D0)|exact Ba|].
  change (dev_id (Ucmd (DevCtx (Some (num_text n)) (Some id)) 0 gen)) with id in *.
  exists d'. split; [exact E|]. split; [exact B'|]. split; [exact U'|]. split.
  - intros a b c e D. destruct (D1 _ _ _ _ D) as (-> & _). auto.
  - intros k x Mk N. destruct (N _ _ _ _ D0) as (N1 & N2). rewrite (A k x Mk N1 N2). split; (intros [H|H]; [auto|right]).
    + exists id, (num_text n), (dsq_text seq partn), name. auto.
    + destruct H as (a & b & c & e & D & H). destruct (D1 _ _ _ _ D) as (-> & -> & -> & ->). exact H.
Qed.
Lemma import_lemma gen l : forall d, base d -> ids_good l ->
  exists d', import d gen l = Ok (d', 0%Z) /\ base d' /\ unsent d d' /\ imported d d' l.
Proof.
  induction l as [|x l IH]; intros d Ba G.
  - exists d. split; [reflexivity|]. split; [exact Ba|]. split; [intros y H; exact H|]. assert (N : forall a b c e, ~ described [] a b c e) by (intros a b c e (? & ? & ? & [] & _)). split; [intros a b c e D; destruct (N _ _ _ _ D)|].
    intros k y Mk _. split; [auto|]. intros [H|(a & b & c & e & D & _)]; [exact H|destruct (N _ _ _ _ D)].
  - destruct (import_one_lemma d gen x Ba) as (d1 & E1 & B1 & U1 & (M1 & A1)); [intros a b c e D; apply (G a b c e), described_cons; auto|].
    destruct (IH d1 B1) as (d2 & E2 & B2 & U2 & (M2 & A2)); [intros a b c e D; apply (G a b c e), described_cons; auto|].
    exists d2. cbn [import]. rewrite E1. cbn [obind]. change (0 <? 0)%Z with false. cbv iota. split; [exact E2|]. split; [exact B2|]. split; [intros y H; auto|].
    assert (NN : forall k, ready_key k = ready_key k) by reflexivity.
    assert (KEEP : forall v, (~ exists num dsq name, described l v num dsq name) -> members d2 (ready_key v) = members d1 (ready_key v) /\ members d2 (reserved_key v) = members d1 (reserved_key v)).
    { intros v Nv.
      assert (H : forall k, main_key k -> (k = ready_key v \/ k = reserved_key v) -> members d2 k = members d1 k).
      { intros k Mk Hk. apply sorted_ext; [apply B2, Mk|apply B1, Mk|]. intros y. rewrite A2; [|exact Mk|].
        - split; [|auto]. intros [H|(a & b & c & e & _ & (cat & al & _ & [(Q & _)|(Q & _)]))]; [exact H|exfalso..].
          + destruct (ready_apart v k (or_introl (ex_intro _ cat (ex_intro _ al Q)))) as (P1 & P2). destruct Hk; congruence.
          + destruct (ready_apart v k (or_intror (ex_intro _ a Q))) as (P1 & P2). destruct Hk; congruence.
        - intros a b c e D. assert (Na : v <> a) by (intros ->; apply Nv; eauto). pose proof (rdy_res v a) as P1. pose proof (rdy_res a v) as P2.
          split; intros Q; destruct Hk as [Hk|Hk]; rewrite Hk in Q.
          + exact (Na (rdy_inj _ _ Q)).
          + exact (P2 (eq_sym Q)).
          + exact (P1 Q).
          + exact (Na (res_inj _ _ Q)). }
      split; apply H; auto; reflexivity. }
    split.
    + intros id num dsq name D. apply described_cons in D as [D|D].
      2: { exact (M2 _ _ _ _ D). }
      assert (DE : (exists a b c, described l id a b c) \/ ~ exists a b c, described l id a b c).
      { clear. induction l as [|y l IHl]; [right; intros (a & b & c & (? & ? & ? & [] & _))|]. destruct IHl as [(a & b & c & H)|H]; [left; exists a, b, c; apply described_cons; auto|].
        destruct y as [[[i|] [q|] [m|] n p]|]; [destruct (list_eq_dec ascii_dec i id) as [->|Ni]|..].
        - left. exists (num_text n), (dsq_text q p), m, q, n, p. split; [left; reflexivity|auto].
        - right. intros (a & b & c & (? & ? & ? & [E|E] & R)); [injection E; congruence|]. apply H. exists a, b, c. do 3 eexists. split; [exact E|exact R].
        - right; intros (a & b & c & (? & ? & ? & [E|E] & R)); [discriminate E|]; apply H; exists a, b, c; do 3 eexists; (split; [exact E|exact R]).
        - right; intros (a & b & c & (? & ? & ? & [E|E] & R)); [discriminate E|]; apply H; exists a, b, c; do 3 eexists; (split; [exact E|exact R]).
        - right; intros (a & b & c & (? & ? & ? & [E|E] & R)); [discriminate E|]; apply H; exists a, b, c; do 3 eexists; (split; [exact E|exact R]).
        - right; intros (a & b & c & (? & ? & ? & [E|E] & R)); [discriminate E|]; apply H; exists a, b, c; do 3 eexists; (split; [exact E|exact R]).
        - right; intros (a & b & c & (? & ? & ? & [E|E] & R)); [discriminate E|]; apply H; exists a, b, c; do 3 eexists; (split; [exact E|exact R]).
        - right; intros (a & b & c & (? & ? & ? & [E|E] & R)); [discriminate E|]; apply H; exists a, b, c; do 3 eexists; (split; [exact E|exact R]).
        - right; intros (a & b & c & (? & ? & ? & [E|E] & R)); [discriminate E|]; apply H; exists a, b, c; do 3 eexists; (split; [exact E|exact R]).
        - right; intros (a & b & c & (? & ? & ? & [E|E] & R)); [discriminate E|]; apply H; exists a, b, c; do 3 eexists; (split; [exact E|exact R]). }
      destruct DE as [(a & b & c & D')|N]; [exact (M2 _ _ _ _ D')|]. destruct (KEEP id N) as (-> & ->). exact (M1 _ _ _ _ D).
    + intros k y Mk N. rewrite A2, A1; [|exact Mk|intros a b c e D; apply (N a b c e), described_cons; auto|exact Mk|intros a b c e D; apply (N a b c e), described_cons; auto].
      split.
      * intros [[H|(a & b & c & e & D & H)]|(a & b & c & e & D & H)]; [auto|right..]; exists a, b, c, e; (split; [apply described_cons; auto|exact H]).
      * intros [H|(a & b & c & e & D & H)]; [auto|]. apply described_cons in D as [D|D]; [left; right|right]; eauto 8.
Qed.

(* What the theorems say *)
Lemma import_theorem d gen l : main_db d -> ids_good l ->
  exists d', import d gen l = Ok (d', 0%Z) /\ main_db d' /\ (forall x, indexed d x = false -> indexed d' x = false)
    /\ (forall id num dsq name, described l id num dsq name -> stored d' (ready_key id) = RDY_UNPROCESSED /\ stored d' (reserved_key id) = RES_UNPROCESSED)
    /\ forall k x, main_key k -> (forall id num dsq name, described l id num dsq name -> k <> ready_key id /\ k <> reserved_key id) ->
         (In x (members d' k) <-> In x (members d k) \/ exists id num dsq name, described l id num dsq name /\ entry id num dsq name k x).
Proof.
  intros Ba G. destruct (import_lemma gen l d Ba G) as (d' & E & B' & U & (M & A)). exists d'. split; [exact E|]. split; [exact B'|]. split; [exact U|]. split; [|exact A].
  intros id num dsq name D. destruct (M _ _ _ _ D) as (M1 & M2). split; apply stored_members; first [reflexivity|assumption].
Qed.
Definition keys_of (l : list (option udev_dev)) : list bytes :=
  flat_map (fun x => match x with Some (UdevDev (Some id) (Some _) (Some _) _ _) => [ready_key id; reserved_key id] | _ => [] end) l.
Lemma keys_lemma l k : In k (keys_of l) <-> exists id num dsq name, described l id num dsq name /\ (k = ready_key id \/ k = reserved_key id).
Proof.
  unfold keys_of. rewrite in_flat_map. split.
  - intros ([[[id|] [seq|] [name|] n partn]|] & H & Hk); try contradiction. exists id, (num_text n), (dsq_text seq partn), name.
    split; [exists seq, n, partn; auto|]. destruct Hk as [<-|[<-|[]]]; auto.
  - intros (id & num & dsq & name & (seq & n & partn & H & _) & Hk). eexists. split; [exact H|]. cbn. destruct Hk as [->| ->]; auto.
Qed.
Lemma again_lemma d gen l d1 r gen' : main_db d -> ids_good l -> import d gen l = Ok (d1, r) ->
  exists d2, import d1 gen' l = Ok (d2, 0%Z) /\ forall k, main_key k -> members d2 k = members d1 k.
Proof.
  intros Ba G E. destruct (import_lemma gen l d Ba G) as (d1' & E1 & B1 & _ & (M1 & A1)). rewrite E1 in E. injection E as <- <-.
  destruct (import_lemma gen' l d1' B1 G) as (d2 & E2 & B2 & _ & (M2 & A2)). exists d2. split; [exact E2|]. intros k Mk.
  destruct (bytes_dec k (keys_of l)) as [Y|N].
  - apply keys_lemma in Y as (id & num & dsq & name & D & Hk). destruct (M1 _ _ _ _ D), (M2 _ _ _ _ D). destruct Hk as [-> | ->]; congruence.
  - assert (N' : forall id num dsq name, described l id num dsq name -> k <> ready_key id /\ k <> reserved_key id).
    { intros id num dsq name D. split; intros Q; apply N, keys_lemma; exists id, num, dsq, name; auto. }
    apply sorted_ext; [apply B2, Mk|apply B1, Mk|]. intros x. rewrite (A2 k x Mk N'). split; [|auto]. intros [H|H]; [exact H|]. apply (A1 k x Mk N'). auto.
Qed.
Lemma alias_list_inj cat num num' : alias_list cat num = alias_list cat num' -> num = num'.
Proof. intros Q. apply app_inv_head, app_inv_head, app_inv_head, app_inv_tail in Q. exact Q. Qed.
Lemma devno_entry id num dsq name num' x : entry id num dsq name (alias_list (B "devno") num') x <-> num' = num /\ x = dev_item id.
Proof.
  split.
  - intros (cat & al & H & [(Q & ->)|(Q & _)]); [|destruct (list_not_in _ _ _ Q)]. destruct H as [H|[H|[H|[]]]]; injection H as <- <-; [discriminate Q| |discriminate Q].
    split; [exact (alias_list_inj _ _ _ Q)|reflexivity].
  - intros (-> & ->). exists (B "devno"), num. split; [right; left; reflexivity|auto].
Qed.
Lemma devno_members d gen l d' num : main_db d -> ids_good l -> import d gen l = Ok (d', 0%Z) -> main_db d' /\
  forall x, In x (members d' (alias_list (B "devno") num)) <-> In x (members d (alias_list (B "devno") num)) \/ exists id dsq name, described l id num dsq name /\ x = dev_item id.
Proof.
  intros Ba G E. destruct (import_lemma gen l d Ba G) as (d1 & E1 & B1 & _ & (M1 & A1)). rewrite E1 in E. injection E as <-. split; [exact B1|]. intros x. rewrite A1; [|reflexivity|intros; split; discriminate].
  split; (intros [H|H]; [auto|right]).
  - destruct H as (id & num' & dsq & name & D & H). apply devno_entry in H as (-> & ->). eauto.
  - destruct H as (id & dsq & name & D & ->). exists id, num, dsq, name. split; [exact D|]. apply devno_entry. auto.
Qed.
Lemma imported_known d gen l d' num v dsq name : main_db d -> ids_good l -> import d gen l = Ok (d', 0%Z) ->
  members d (alias_list (B "devno") num) = [] \/ known_as d num v -> described l v num dsq name -> (forall w dsq' name', described l w num dsq' name' -> w = v) -> known_as d' num v.
Proof.
  intros Ba G E N D O. destruct (devno_members d gen l d' num Ba G E) as (B1 & H). apply members_some. apply sorted_single; [apply B1; reflexivity|]. intros x. rewrite H. split.
  - intros [Q|(id & q & m & D' & ->)]; [|f_equal; eauto]. destruct N as [N|(r & Er & Dr)]; [rewrite N in Q; destruct Q|]. unfold members in Q. rewrite Er, Dr in Q. destruct Q as [<-|[]]. reflexivity.
  - intros ->. right. eauto.
Qed.
Lemma imported_id d gen l d' num v dsq name : main_db d -> ids_good l -> import d gen l = Ok (d', 0%Z) ->
  members d (alias_list (B "devno") num) = [] \/ known_as d num v -> described l v num dsq name -> (forall w dsq' name', described l w num dsq' name' -> w = v) -> id_ok v ->
  forall s u o dsq2 name2 junk g, sc_db s = d' -> num_s (u_dev u) = Some num -> udev_says d' num o -> length junk = 37 ->
  exists d2, set_dev_kvs s u dsq2 name2 junk g = Ok (with_db s d2, Some v, 0%Z).
Proof.
  intros Ba G E N D O Iv s u o dsq2 name2 junk g Es En U L. pose proof (imported_known d gen l d' num v dsq name Ba G E N D O) as K.
  rewrite <- Es in K, U. destruct (known_lemma s u num v o dsq2 name2 junk g En K Iv L U) as (d2 & E2 & _). eauto.
Qed.
Lemma two_members (l : list bytes) a b : In a l -> In b l -> a <> b -> exists x y r, l = x :: y :: r.
Proof. destruct l as [|x [|y r]]; [intros []|intros [->|[]] [->|[]]; contradiction|eauto]. Qed.
Lemma import_twice d gen l d' num v w dsq name : main_db d -> ids_good l -> import d gen l = Ok (d', 0%Z) ->
  known_as d num v -> length v = 36 -> described l w num dsq name -> w <> v -> (forall id q m, described l id num q m -> length id = 36) ->
  forall s u o dsq2 name2 junk g, sc_db s = d' -> num_s (u_dev u) = Some num -> udev_says d' num o -> length junk = 37 ->
  set_dev_kvs s u dsq2 name2 junk g = UB.
Proof.
  intros Ba G E (r & Er & Dr) Lv D Nw Ll s u o dsq2 name2 junk g Es En U L.
  destruct (devno_members d gen l d' num Ba G E) as (B1 & H). rewrite <- Es in U. unfold set_dev_kvs. rewrite (has_udev_get _ _ _ _ En U). cbn [obind].
  replace (Tok_Model.or_empty (num_s (u_dev u))) with num by (rewrite En; reflexivity).
  assert (M : members d (alias_list (B "devno") num) = [dev_item v]) by (unfold members; rewrite Er; exact Dr).
  assert (Hv : In (dev_item v) (members d' (alias_list (B "devno") num))) by (apply H; rewrite M; cbn; auto).
  assert (Hw : In (dev_item w) (members d' (alias_list (B "devno") num))) by (apply H; eauto 8).
  destruct (two_members _ _ _ Hv Hw) as (x & y & t & Q); [intros Q; apply UbrDelta_Proofs.dev_inj in Q; exact (Nw (eq_sym Q))|].
  assert (LL : forall z, In z (members d' (alias_list (B "devno") num)) -> exists i, no_colon i /\ length i = 36 /\ z = dev_item i).
  { intros z Hz. destruct B1 as ((_ & W2 & _) & _). destruct (W2 (alias_item (B "/") (B "devno") num) z) as (i & Ni & ->); [eexists; left; reflexivity|rewrite alias_members; exact Hz|]. exists i. split; [exact Ni|]. split; [|reflexivity].
    apply H in Hz. rewrite M in Hz. destruct Hz as [[Hz|[]]|(id & q & m & D' & Hz)]; apply UbrDelta_Proofs.dev_inj in Hz; [rewrite <- Hz; exact Lv|]. rewrite Hz. eauto. }
  assert (MP : forall t, (forall z, In z t -> exists i, no_colon i /\ length i = 36 /\ z = dev_item i) -> exists ids, t = map dev_item ids).
  { clear. induction t as [|z t IH]; intros F; [exists []; reflexivity|]. destruct (F z) as (i & _ & _ & ->); [left; reflexivity|]. destruct IH as (ids & ->); [intros y Hy; apply F; right; exact Hy|]. exists (i :: ids). reflexivity. }
  destruct (LL x) as (a & Na & La & ->); [rewrite Q; cbn; auto|]. destruct (LL y) as (b & Nb & Lb & ->); [rewrite Q; cbn; auto|].
  destruct (MP t) as (ids & ->); [intros z Hz; apply LL; rewrite Q; cbn; auto|].
  destruct (members_some d' _ _ _ Q) as (r1 & E1 & D1).
  unfold alias_to_devid.
  assert (UBX : raw_alias_to_devid (sc_db s) (compose_key (KeySpec None OP_SET (Some DOM_ALIAS) NS_MODULE (Some (get_ns_part (u_dev u) OWNER_CORE NS_MODULE)) (Some AL_DEVNO) (Some num) (Some K_MEMBERS))) junk = UB).
  { apply (alias_second_lemma (sc_db s) _ junk r1 a b ids); try assumption; try (rewrite ?L, ?La, ?Lb; lia).
    change (canonicalize_key (compose_key (KeySpec None OP_SET (Some DOM_ALIAS) NS_MODULE (Some (get_ns_part (u_dev u) OWNER_CORE NS_MODULE)) (Some AL_DEVNO) (Some num) (Some K_MEMBERS))))
      with (store_key (group_spec OWNER_CORE DOM_ALIAS NS_MODULE AL_DEVNO num)). rewrite alias_store, Es. exact E1. }
  rewrite UBX. reflexivity.
Qed.
