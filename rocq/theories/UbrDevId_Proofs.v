From Verif Require Import Base Kvs_Model UbrKey_Model UbrKey_Spec UbrKey_Proofs UbrDb_Model UbrPerm_Proofs UbrRec_Model UbrDelta_Model UbrDelta_Spec UbrDelta_Proofs
  UbrStack_Model UbrStack_Spec UbrStack_Proofs UbrScan_Model UbrScan_Spec UbrScan_Proofs UbrDevId_Model UbrDevId_Spec.
Local Open Scope nat_scope.

(* Writing a record by the core *)
Definition set_at (u : ucmd) (n : kv_ns) (c : bytes) : bytes := canonicalize_key (skipn 1 (compose_key (set_spec (u_dev u) OWNER_CORE None n c))).
Definition arch_at (u : ucmd) (n : kv_ns) (c : bytes) : bytes := canonicalize_key (with_prefix C_ARCHIVE (compose_key (set_spec (u_dev u) OWNER_CORE None n c))).
Lemma set_text u n c : n = NS_DEVICE \/ n = NS_UDEV -> set_at u n c = B "::" ++ ns_text n ++ B ":" ++ str (if ns_eqb n NS_UDEV then num_s (u_dev u) else uid_s (u_dev u)) ++ B ":::" ++ c.
Proof.
  intros H. unfold set_at. rewrite key_tail_lemma by reflexivity. rewrite canon_joined. unfold parts_of, joined.
  destruct H as [-> | ->]; cbn [ks_op ks_dom ks_ns ks_ns_part ks_id_cat ks_id ks_core set_spec str op_text ns_text get_ns_part ns_eqb B app]; unfold Tok_Model.or_empty;
    [destruct (uid_s (u_dev u))|destruct (num_s (u_dev u))]; reflexivity.
Qed.
Lemma arch_text u n c : n = NS_DEVICE \/ n = NS_UDEV -> arch_at u n c = "~"%char :: set_at u n c.
Proof. intros H. unfold arch_at, set_at. rewrite key_tail_lemma by reflexivity. rewrite canon_joined, compose_joined. destruct H as [-> | ->]; reflexivity. Qed.
Lemma get_text u n c : n = NS_DEVICE \/ n = NS_UDEV -> canonicalize_key (compose_key (get_spec (u_dev u) OWNER_CORE None n c 0 None None)) = set_at u n c.
Proof.
  intros H. rewrite (set_text u n c H). rewrite canon_compose. unfold parts_of, joined, get_spec.
  destruct H as [-> | ->]; cbn [ks_extra ks_op ks_dom ks_ns ks_ns_part ks_id_cat ks_id ks_core str op_text ns_text get_ns_part ns_eqb B app Nat.eqb]; unfold Tok_Model.or_empty;
    [destruct (uid_s (u_dev u))|destruct (num_s (u_dev u))]; reflexivity.
Qed.
Lemma core_put d u n c v fl : n = NS_DEVICE \/ n = NS_UDEV -> let k := set_at u n c in
  exists d' r, do_kv_set d u OWNER_CORE None n c (Some v) fl false = Ok (d', 0%Z, Some r) /\ r_data r = [v] /\ recs d' k = Some r
    /\ (forall x, x <> k -> (has (if ns_eqb n NS_UDEV then N.lor fl FL_SYNC_P else fl) FL_AR = false \/ x <> "~"%char :: k) -> same_at d d' x).
Proof.
  intros H k. unfold do_kv_set.
  assert (G : ((if ns_eqb n NS_UDEV && key_eqb OWNER_CORE OWNER_CORE then 0%Z else check_global_kv_rs_for_wr d OWNER_CORE None n c) <? 0)%Z = false).
  { destruct (ns_eqb n NS_UDEV && key_eqb OWNER_CORE OWNER_CORE); [reflexivity|apply global_nonneg]. }
  rewrite G. clear G. set (fl' := if ns_eqb n NS_UDEV then N.lor fl FL_SYNC_P else fl). unfold kvs_set.
  fold (set_at u n c). fold (arch_at u n c). unfold cb_write. cbn [r_owner]. rewrite core_allowed.
  set (nr := Rec _ _ _ _ _). fold k.
  assert (N1 : k <> "~"%char :: k) by (intros E; apply (f_equal (@length _)) in E; cbn in E; lia).
  assert (IX : forall d1 code, recs (manage_kv_index d1 code k) = recs d1 /\ forall x, x <> k -> indexed (manage_kv_index d1 code k) x = indexed d1 x).
  { intros d1 code. split; [apply index_recs|]. intros x Nx. unfold manage_kv_index. repeat match goal with |- context [if ?b then _ else _] => destruct b end; cbn [indexed]; try reflexivity; apply mark_other, Nx. }
  assert (AK : arch_at u n c = "~"%char :: k) by apply arch_text, H.
  destruct (has fl' FL_AR).
  - unfold arch_at in AK. cbv beta iota. rewrite AK. exists (manage_kv_index (Db (match recs d k with Some o => put (put (recs d) k (Some nr)) ("~"%char :: k) (Some o) | None => put (recs d) k (Some nr) end) (indexed d))
        (check_kv_index_needed false (recs d k) (Some nr)) k), nr. split; [reflexivity|]. split; [reflexivity|].
    destruct (IX (Db (match recs d k with Some o => put (put (recs d) k (Some nr)) ("~"%char :: k) (Some o) | None => put (recs d) k (Some nr) end) (indexed d))
        (check_kv_index_needed false (recs d k) (Some nr))) as (I1 & I2). split.
    + rewrite I1. cbn [recs]. destruct (recs d k); [rewrite put_other by exact N1|]; apply put_same.
    + intros x Nx [Q|Na]; [discriminate|]. unfold same_at. rewrite I1, I2 by exact Nx. cbn [recs indexed]. split; [|reflexivity].
      destruct (recs d k); [rewrite put_other by exact Na|]; apply put_other, Nx.
  - exists (manage_kv_index (Db (put (recs d) k (Some nr)) (indexed d)) (check_kv_index_needed false (recs d k) (Some nr)) k), nr.
    split; [reflexivity|]. split; [reflexivity|]. destruct (IX (Db (put (recs d) k (Some nr)) (indexed d)) (check_kv_index_needed false (recs d k) (Some nr))) as (I1 & I2).
    split; [rewrite I1; apply put_same|]. intros x Nx _. unfold same_at. rewrite I1, I2 by exact Nx. cbn [recs indexed]. split; [apply put_other, Nx|reflexivity].
Qed.

(* Equal lists from equal sets *)
Lemma before_irrefl a : ~ before a a.
Proof. induction a as [|x a IH]; intros H; inversion H; subst; [lia|contradiction]. Qed.
Lemma sorted_ext l : forall l', sorted l -> sorted l' -> (forall x, In x l <-> In x l') -> l = l'.
Proof.
  induction l as [|x l IH]; intros [|y l'] S S' E; [reflexivity|destruct (proj2 (E y) (or_introl eq_refl))|destruct (proj1 (E x) (or_introl eq_refl))|].
  destruct (sorted_inv _ _ S) as (S1 & B1). destruct (sorted_inv _ _ S') as (S2 & B2).
  assert (x = y) as <-.
  { destruct (proj1 (E x) (or_introl eq_refl)) as [Q|Q]; [congruence|]. destruct (proj2 (E y) (or_introl eq_refl)) as [Q'|Q']; [congruence|].
    destruct (before_irrefl x). exact (before_trans _ _ _ (B1 _ Q') (B2 _ Q)). }
  f_equal. apply IH; [assumption..|]. intros z. split; intros H.
  - destruct (proj1 (E z) (or_intror H)) as [<-|Q]; [destruct (sorted_notin _ _ S H)|exact Q].
  - destruct (proj2 (E z) (or_intror H)) as [<-|Q]; [destruct (sorted_notin _ _ S' H)|exact Q].
Qed.

(* A record beside the lists does not disturb them *)
Definition aside (k : bytes) : Prop := (forall a, k <> members_of a) /\ (forall a, k <> in_of a).
Definition base (d : db) : Prop := well_formed d /\ symmetric d /\ fresh d.
Lemma tail_aside p c : length c = 4 -> c <> B "#GMB" -> c <> B "#GIN" -> aside (p ++ c).
Proof.
  intros L N1 N2. assert (G : forall a e, length e = 4 -> p ++ c = a ++ e -> c = e).
  { intros a e Le E. apply (f_equal (@rev _)) in E. rewrite !rev_app_distr in E. apply (f_equal (firstn 4)) in E.
    rewrite !firstn_app, !rev_length, L, Le, Nat.sub_diag, !firstn_O, !app_nil_r in E. rewrite !firstn_all2 in E by (rewrite rev_length; lia).
    rewrite <- (rev_involutive c), E. apply rev_involutive. }
  split; intros a E; [apply N1|apply N2]; apply (G a); try reflexivity; exact E.
Qed.
Lemma base_put d d' k v : main_key k -> aside k -> members d' k = [v] -> (forall x, x <> k -> x <> "~"%char :: k -> same_at d d' x) -> base d -> base d'.
Proof.
  intros Mk (A1 & A2) E F ((W1 & W2 & W3) & (S1 & S2) & Fr).
  assert (M : forall x, main_key x -> x <> k -> members d' x = members d x).
  { intros x Mx N. apply same_members, F; [exact N|]. intros ->. discriminate Mx. }
  assert (G : forall a, main_key (members_of a) -> members d' (members_of a) = members d (members_of a)) by (intros a Ma; apply M; [exact Ma|intros Q; exact (A1 _ (eq_sym Q))]).
  assert (I : forall a, main_key (in_of a) -> members d' (in_of a) = members d (in_of a)) by (intros a Ma; apply M; [exact Ma|intros Q; exact (A2 _ (eq_sym Q))]).
  split; [|split].
  - split; [|split].
    + intros x Mx. destruct (list_eq_dec ascii_dec x k) as [->|N]; [rewrite E; apply sorted_one|rewrite M by assumption; apply W1, Mx].
    + intros g x Gi H. rewrite G in H by apply group_main, Gi. exact (W2 g x Gi H).
    + intros uid x Nu H. rewrite G in H by reflexivity. exact (W3 uid x Nu H).
  - split.
    + intros g uid Gi Nu. rewrite G by apply group_main, Gi. rewrite I by reflexivity. apply S1; assumption.
    + intros uid id Nu Ni. rewrite G by reflexivity. rewrite I by reflexivity. apply S2; assumption.
  - intros x c Mx Hc. destruct (F (c :: x)) as (-> & ->); [| |apply Fr; assumption].
    + intros Q. rewrite <- Q in Mk. destruct Hc as [<-|[<-|[]]]; discriminate Mk.
    + intros Q. injection Q as Q _. destruct Hc as [<-|[<-|[]]]; discriminate Q.
Qed.

(* The two states of a new device *)
Lemma init_caps p : In p [A_INIT; REMOVE_INIT; B_INIT] -> has (phase_flags p) CAP_RDY = true /\ has (phase_flags p) CAP_RES = true.
Proof. intros [<-|[<-|[<-|[]]]]; split; reflexivity. Qed.
Lemma state_at u c : set_at u NS_DEVICE c = B "::D:" ++ dev_id u ++ B ":::" ++ c.
Proof. rewrite set_text by auto. reflexivity. Qed.
Lemma ready_start s u : In (sc_phase s) [A_INIT; REMOVE_INIT; B_INIT] -> sc_ready s = RDY_UNDEFINED -> base (sc_db s) ->
  exists d', set_ready s u OWNER_CORE RDY_UNPROCESSED false = Ok (Scan d' (sc_phase s) RDY_UNPROCESSED (sc_reserved s), 0%Z) /\ base d'
    /\ members d' (ready_key (dev_id u)) = [le 4 RDY_UNPROCESSED]
    /\ forall x, x <> ready_key (dev_id u) -> x <> "~"%char :: ready_key (dev_id u) -> same_at (sc_db s) d' x.
Proof.
  intros P R Ba. unfold set_ready. rewrite R. change ((8 <? RDY_UNPROCESSED) || (8 <? RDY_UNDEFINED))%N with false. rewrite (proj1 (init_caps _ P)).
  change (RDY_UNPROCESSED =? RDY_UNDEFINED)%N with false. change (ready_refused RDY_UNDEFINED RDY_UNPROCESSED) with false. cbn [negb].
  destruct (core_put (sc_db s) u NS_DEVICE K_READY (le 4 RDY_UNPROCESSED) (state_flags false) (or_introl eq_refl)) as (d' & r & E & Er & Ek & F).
  rewrite E. cbn [obind]. rewrite state_at in Ek, F. change (B "::D:" ++ dev_id u ++ B ":::" ++ K_READY) with (ready_key (dev_id u)) in Ek, F.
  assert (M : members d' (ready_key (dev_id u)) = [le 4 RDY_UNPROCESSED]) by (unfold members; rewrite Ek; exact Er).
  assert (Fr : forall x, x <> ready_key (dev_id u) -> x <> "~"%char :: ready_key (dev_id u) -> same_at (sc_db s) d' x) by (intros x H1 H2; apply F; auto).
  exists d'. split; [reflexivity|]. split; [|split; assumption].
  eapply (base_put (sc_db s) d' (ready_key (dev_id u))); try eassumption; [reflexivity|].
  unfold ready_key. change (B "::D:" ++ dev_id u ++ B ":::#RDY") with (B "::D:" ++ dev_id u ++ B ":::" ++ B "#RDY"). rewrite app_assoc, app_assoc.
  apply tail_aside; [reflexivity|discriminate|discriminate].
Qed.
Lemma reserved_start s u : In (sc_phase s) [A_INIT; REMOVE_INIT; B_INIT] -> sc_reserved s = RES_UNDEFINED -> base (sc_db s) ->
  exists d', set_reserved s u OWNER_CORE RES_UNPROCESSED false = Ok (Scan d' (sc_phase s) (sc_ready s) RES_UNPROCESSED, 0%Z) /\ base d'
    /\ members d' (reserved_key (dev_id u)) = [le 4 RES_UNPROCESSED]
    /\ forall x, x <> reserved_key (dev_id u) -> x <> "~"%char :: reserved_key (dev_id u) -> same_at (sc_db s) d' x.
Proof.
  intros P R Ba. unfold set_reserved. rewrite R. change ((4 <? RES_UNPROCESSED) || (4 <? RES_UNDEFINED))%N with false. rewrite (proj2 (init_caps _ P)).
  change (RES_UNPROCESSED =? RES_UNDEFINED)%N with false. change (reserved_refused RES_UNDEFINED RES_UNPROCESSED) with false. cbn [negb].
  destruct (core_put (sc_db s) u NS_DEVICE K_RESERVED (le 4 RES_UNPROCESSED) (state_flags false) (or_introl eq_refl)) as (d' & r & E & Er & Ek & F).
  rewrite E. cbn [obind]. rewrite state_at in Ek, F. change (B "::D:" ++ dev_id u ++ B ":::" ++ K_RESERVED) with (reserved_key (dev_id u)) in Ek, F.
  assert (M : members d' (reserved_key (dev_id u)) = [le 4 RES_UNPROCESSED]) by (unfold members; rewrite Ek; exact Er).
  assert (Fr : forall x, x <> reserved_key (dev_id u) -> x <> "~"%char :: reserved_key (dev_id u) -> same_at (sc_db s) d' x) by (intros x H1 H2; apply F; auto).
  exists d'. split; [reflexivity|]. split; [|split; assumption].
  eapply (base_put (sc_db s) d' (reserved_key (dev_id u))); try eassumption; [reflexivity|].
  unfold reserved_key. change (B "::D:" ++ dev_id u ++ B ":::#RES") with (B "::D:" ++ dev_id u ++ B ":::" ++ B "#RES"). rewrite app_assoc, app_assoc.
  apply tail_aside; [reflexivity|discriminate|discriminate].
Qed.

(* One alias *)
Lemma alias_key cat id : compose_key_prefix (group_spec OWNER_CORE DOM_ALIAS NS_MODULE cat id) = alias_item (B "/") cat id.
Proof. reflexivity. Qed.
Lemma alias_members cat id : members_of (alias_item (B "/") cat id) = alias_list cat id.
Proof. unfold members_of, alias_item, alias_list. rewrite <- !app_assoc. reflexivity. Qed.
Lemma alias_store cat id : store_key (group_spec OWNER_CORE DOM_ALIAS NS_MODULE cat id) = alias_list cat id.
Proof. unfold group_spec. rewrite gspec_store. fold (group_spec OWNER_CORE DOM_ALIAS NS_MODULE cat id). rewrite alias_key. apply alias_members. Qed.
Lemma alias_added d0 s u cat id : good_dev u -> inv_all d0 (sc_db s) -> well_formed (sc_db s) -> symmetric (sc_db s) ->
  let k := alias_list cat id in
  exists d', add_alias s u cat id = Ok (with_db s d', 0%Z) /\ inv_all d0 d' /\ well_formed d' /\ symmetric d'
    /\ (forall x, In x (members d' k) <-> In x (members (sc_db s) k) \/ x = this_dev u)
    /\ (forall k' x, main_key k' -> k' <> k -> (In x (members d' k') <-> In x (members (sc_db s) k')
          \/ (k' = in_of (this_dev u) /\ x = alias_item (B "/") cat id /\ ~ In (this_dev u) (members (sc_db s) k)))).
Proof.
  intros Gu I W Sy k. unfold add_alias.
  destruct (handle_lemma d0 (sc_db s) u OWNER_CORE None DOM_ALIAS NS_MODULE cat id OP_PLUS) as (d' & E & (I' & W' & S') & M & _); auto; [discriminate|].
  rewrite E. cbn [obind]. exists d'. split; [reflexivity|]. split; [exact I'|]. split; [exact W'|]. split; [exact (S' Sy)|].
  rewrite alias_key, alias_members in M. fold k in M.
  split; [intros x; rewrite M; cbn [result In]; intuition congruence|].
  pose proof (kv_lemma d0 (sc_db s) (group_spec OWNER_CORE DOM_ALIAS NS_MODULE cat id) (dev_spec (get_ns_part (u_dev u) OWNER_CORE NS_DEVICE)) (core_hdr u FLAGS_NO_SYNC) OP_PLUS
    [compose_key_prefix (dev_spec (get_ns_part (u_dev u) OWNER_CORE NS_DEVICE))]) as K. cbn zeta in K.
  unfold handle_devs_for_group in E. rewrite uid_lemma, dev_prefix in E, K. fold (this_dev u) in E, K.
  rewrite alias_store in K. fold k in K.
  assert (Nu : no_colon (str (uid_s (u_dev u)))) by apply opt_str, Gu.
  assert (Rk : forall v, no_colon v -> forall k', rel_key (dev_spec (str (uid_s (u_dev u)))) (dev_item v) k' <-> k' = in_of (dev_item v)).
  { intros v Nv k'. unfold rel_key. rewrite (dev_relative (dev_spec (str (uid_s (u_dev u)))) v eq_refl Nv). split.
    - intros (x & Q & <-). injection Q as <-. apply (dev_store v).
    - intros ->. eexists. split; [reflexivity|]. apply (dev_store v). }
  destruct K as (d1 & E1 & _ & _ & F).
  - split; reflexivity.
  - exact I.
  - reflexivity.
  - apply sorted_one.
  - intros x Hx. assert (Hd : exists v, no_colon v /\ x = dev_item v).
    { destruct Hx as [Hx|[<-|[]]]; [|exists (str (uid_s (u_dev u))); auto]. destruct W as (_ & W & _). apply (W (alias_item (B "/") cat id)); [eexists; left; reflexivity|]. rewrite alias_members. exact Hx. }
    destruct Hd as (v & Nv & ->). exists (dev_spec v). split; [rewrite (dev_relative (dev_spec (str (uid_s (u_dev u)))) v eq_refl Nv); reflexivity|]. split; [split; reflexivity|].
    rewrite dev_store. unfold k. rewrite <- alias_members. intros Q. exact (members_in_ne _ _ (eq_sym Q)).
  - rewrite E in E1. injection E1 as <-. intros k' x Mk' Nk. rewrite (F k' x Mk' Nk). cbn [result]. rewrite alias_key. split.
    + intros ([H|(-> & y & ((H1 & H2) & H3))] & _); [left; exact H|right]. destruct H1 as [H1|[<-|[]]]; [contradiction|].
      apply (Rk _ Nu) in H3. auto.
    + intros [H|(-> & -> & H)]; (split; [|intros (_ & y & (H1 & H2) & _); tauto]); [left; exact H|right]. split; [reflexivity|].
      exists (this_dev u). split; [split; [right; left; reflexivity|exact H]|]. apply (Rk _ Nu). reflexivity.
Qed.

(* A new device *)
Definition adds (u : ucmd) (m m' : bytes -> list bytes) (cat id : bytes) : Prop := forall k x, main_key k ->
  (In x (m' k) <-> In x (m k) \/ (k = alias_list cat id /\ x = this_dev u)
     \/ (k = in_of (this_dev u) /\ x = alias_item (B "/") cat id /\ ~ In (this_dev u) (m (alias_list cat id)))).
Lemma list_not_in cat id a : alias_list cat id <> in_of (dev_item a). Proof. discriminate. Qed.
Lemma alias_adds d0 s u cat id : good_dev u -> inv_all d0 (sc_db s) -> well_formed (sc_db s) -> symmetric (sc_db s) ->
  exists d', add_alias s u cat id = Ok (with_db s d', 0%Z) /\ inv_all d0 d' /\ well_formed d' /\ symmetric d' /\ adds u (members (sc_db s)) (members d') cat id.
Proof.
  intros Gu I W Sy. destruct (alias_added d0 s u cat id Gu I W Sy) as (d' & E & I' & W' & S' & M & F). exists d'. do 4 (split; [assumption|]).
  intros k x Mk. destruct (list_eq_dec ascii_dec k (alias_list cat id)) as [->|N].
  - rewrite M. split; [intros [H|H]; auto|]. intros [H|[(_ & H)|(Q & _)]]; auto. destruct (list_not_in _ _ _ Q).
  - rewrite (F k x Mk N). tauto.
Qed.
Lemma adds_other u m m' cat id cat' id' : adds u m m' cat id -> alias_list cat' id' <> alias_list cat id ->
  forall x, In x (m' (alias_list cat' id')) <-> In x (m (alias_list cat' id')).
Proof. intros A N x. rewrite (A (alias_list cat' id') x eq_refl). split; [intros [H|[(Q & _)|(Q & _)]]; [exact H|contradiction|destruct (list_not_in _ _ _ Q)]|auto]. Qed.
Definition three (num dsq name : bytes) : list (bytes * bytes) := [(B "dseq", dsq); (B "devno", num); (B "name", name)].
Lemma new_dev s u dsq name : scan_start s -> good_dev u -> let v := dev_id u in let num := str (num_s (u_dev u)) in
  exists d', set_new_dev_kvs s u dsq name = Ok (Scan d' (sc_phase s) RDY_UNPROCESSED RES_UNPROCESSED, 0%Z)
    /\ members d' (ready_key v) = [le 4 RDY_UNPROCESSED] /\ members d' (reserved_key v) = [le 4 RES_UNPROCESSED]
    /\ (forall k, main_key k -> sorted (members d' k)) /\ symmetric d'
    /\ (forall k x, main_key k -> k <> ready_key v -> k <> reserved_key v ->
        (In x (members d' k) <-> In x (members (sc_db s) k)
           \/ (x = dev_item v /\ exists cat id, In (cat, id) (three num dsq name) /\ k = alias_list cat id)
           \/ (k = in_of (dev_item v) /\ exists cat id, In (cat, id) (three num dsq name)
                 /\ x = alias_item (B "/") cat id /\ ~ In (dev_item v) (members (sc_db s) (alias_list cat id))))).
Proof.
  intros (P & R1 & R2 & W & Sy & Fr) Gu v num. unfold set_new_dev_kvs.
  destruct (ready_start s u P R1 (conj W (conj Sy Fr))) as (d1 & E1 & B1 & M1 & F1). rewrite E1. cbn [obind Z.ltb Z.compare]. clear E1.
  destruct (reserved_start (Scan d1 (sc_phase s) RDY_UNPROCESSED (sc_reserved s)) u P R2 B1) as (d2 & E2 & B2 & M2 & F2). rewrite E2. cbn [obind Z.ltb Z.compare sc_phase sc_ready sc_db] in *. clear E2.
  fold v in M1, M2, F1, F2. destruct B2 as (W2 & S2 & Fr2). pose proof (fresh_inv d2 W2 Fr2) as I2.
  assert (NR : ready_key v <> reserved_key v) by (intros Q; apply app_inv_head, app_inv_head in Q; discriminate Q).
  assert (NA : forall k, main_key k -> k <> "~"%char :: ready_key v) by (intros k Mk ->; discriminate Mk).
  assert (NB : forall k, main_key k -> k <> "~"%char :: reserved_key v) by (intros k Mk ->; discriminate Mk).
  assert (M0 : forall k, main_key k -> k <> ready_key v -> k <> reserved_key v -> members d2 k = members (sc_db s) k).
  { intros k Mk N1 N2. rewrite (same_members _ _ _ (F2 k N2 (NB k Mk))). apply same_members, F1; auto. }
  assert (M1' : members d2 (ready_key v) = [le 4 RDY_UNPROCESSED]).
  { rewrite <- M1. apply same_members, F2; [exact NR|]. apply NB. reflexivity. }
  destruct (alias_adds d2 (Scan d2 (sc_phase s) RDY_UNPROCESSED RES_UNPROCESSED) u AL_DSEQ dsq Gu I2 W2 S2) as (d3 & -> & I3 & W3 & S3 & A3). cbn [obind Z.ltb Z.compare].
  destruct (alias_adds d2 (with_db (Scan d2 (sc_phase s) RDY_UNPROCESSED RES_UNPROCESSED) d3) u AL_DEVNO (Tok_Model.or_empty (num_s (u_dev u))) Gu I3 W3 S3) as (d4 & -> & I4 & W4 & S4 & A4). cbn [obind Z.ltb Z.compare].
  replace (Tok_Model.or_empty (num_s (u_dev u))) with num in A4 by (unfold num; destruct (num_s (u_dev u)); reflexivity).
  destruct (alias_adds d2 (with_db (with_db (Scan d2 (sc_phase s) RDY_UNPROCESSED RES_UNPROCESSED) d3) d4) u AL_NAME name Gu I4 W4 S4) as (d5 & -> & I5 & W5 & S5 & A5).
  cbn [with_db sc_phase sc_ready sc_reserved sc_db] in *. exists d5. split; [reflexivity|].
  assert (D1 : alias_list AL_DEVNO num <> alias_list AL_DSEQ dsq) by discriminate.
  assert (D2 : alias_list AL_NAME name <> alias_list AL_DSEQ dsq) by discriminate.
  assert (D3 : alias_list AL_NAME name <> alias_list AL_DEVNO num) by discriminate.
  assert (T : this_dev u = dev_item v) by reflexivity.
  assert (ALL : forall k x, main_key k -> (In x (members d5 k) <-> In x (members d2 k)
           \/ (x = dev_item v /\ exists cat id, In (cat, id) (three num dsq name) /\ k = alias_list cat id)
           \/ (k = in_of (dev_item v) /\ exists cat id, In (cat, id) (three num dsq name)
                 /\ x = alias_item (B "/") cat id /\ ~ In (dev_item v) (members (sc_db s) (alias_list cat id))))).
  { intros k x Mk. rewrite (A5 k x Mk), (A4 k x Mk), (A3 k x Mk), !T. unfold three.
    assert (Q1 : members d2 (alias_list AL_DSEQ dsq) = members (sc_db s) (alias_list AL_DSEQ dsq)) by (apply M0; [reflexivity|discriminate|discriminate]).
    assert (Q2 : members d2 (alias_list AL_DEVNO num) = members (sc_db s) (alias_list AL_DEVNO num)) by (apply M0; [reflexivity|discriminate|discriminate]).
    assert (Q3 : members d2 (alias_list AL_NAME name) = members (sc_db s) (alias_list AL_NAME name)) by (apply M0; [reflexivity|discriminate|discriminate]).
    rewrite (adds_other _ _ _ _ _ _ _ A4 D3), (adds_other _ _ _ _ _ _ _ A3 D2), (adds_other _ _ _ _ _ _ _ A3 D1), Q1, Q2, Q3.
    change AL_DSEQ with (B "dseq"). change AL_DEVNO with (B "devno"). change AL_NAME with (B "name").
    split.
    - intros [[[H|[(H1 & H2)|(H1 & H2 & H3)]]|[(H1 & H2)|(H1 & H2 & H3)]]|[(H1 & H2)|(H1 & H2 & H3)]]; [left; exact H|..].
      1,3,5: right; left; split; [exact H2|]; do 2 eexists; split; [|exact H1]; cbn [In]; tauto.
      all: right; right; split; [exact H1|]; do 2 eexists; split; [|split; [exact H2|exact H3]]; cbn [In]; tauto.
    - intros [H|[(-> & cat & id & H & ->)|(-> & cat & id & H & -> & H3)]]; [tauto| |].
      + destruct H as [H|[H|[H|[]]]]; injection H as <- <-; tauto.
      + destruct H as [H|[H|[H|[]]]]; injection H as <- <-; tauto. }
  assert (SO : forall k, main_key k -> sorted (members d5 k)) by (intros k Mk; apply (I5 k Mk)).
  assert (KEEP : forall k, main_key k -> (forall cat id, k <> alias_list cat id) -> k <> in_of (dev_item v) -> members d5 k = members d2 k).
  { intros k Mk N1 N2. apply sorted_ext; [apply SO, Mk|apply (I2 k Mk)|]. intros x. rewrite (ALL k x Mk). split; [|auto].
    intros [H|[(_ & cat & id & _ & Q)|(Q & _)]]; [exact H|destruct (N1 _ _ Q)|contradiction]. }
  split; [rewrite KEEP; [exact M1'|reflexivity|discriminate|]|split; [rewrite KEEP; [exact M2|reflexivity|discriminate|]|]].
  - unfold ready_key, in_of, dev_item. rewrite <- !app_assoc. intros Q. apply app_inv_head, app_inv_head in Q. discriminate Q.
  - unfold reserved_key, in_of, dev_item. rewrite <- !app_assoc. intros Q. apply app_inv_head, app_inv_head in Q. discriminate Q.
  - split; [exact SO|]. split; [exact S5|]. intros k x Mk N1 N2. rewrite (ALL k x Mk), (M0 k Mk N1 N2). reflexivity.
Qed.

(* Reading strings *)
Lemma core_get_lemma d u n c : n = NS_DEVICE \/ n = NS_UDEV ->
  (lacks d (set_at u n c) -> core_get d u n c = Ok None)
  /\ (forall v, holds d (set_at u n c) v -> ~ In NUL v -> core_get d u n c = Ok (Some v)).
Proof.
  intros H. unfold core_get, cmd_get_key_value. rewrite (get_text u n c H). set (k := set_at u n c). split.
  - intros L. destruct (recs d k) as [r|] eqn:E; [|reflexivity]. unfold mod_match. change (key_eqb OWNER_CORE OWNER_CORE) with true. cbv iota. rewrite (L r E). reflexivity.
  - intros v (r & E & D) N. rewrite E. unfold mod_match. change (key_eqb OWNER_CORE OWNER_CORE) with true. cbv iota. rewrite D. cbn [fst].
    rewrite (UbrRec_Proofs.string_ok v [] N). reflexivity.
Qed.
Lemma devid_known d u num v junk : num_s (u_dev u) = Some num -> known_as d num v -> id_ok v -> length junk = 37 ->
  exists rest, alias_to_devid d u OWNER_CORE AL_DEVNO num junk = Ok (0%Z, v ++ NUL :: rest).
Proof.
  intros En (r & E & D) Iv L. unfold alias_to_devid, raw_alias_to_devid.
  change (canonicalize_key (compose_key (KeySpec None OP_SET (Some DOM_ALIAS) NS_MODULE (Some (get_ns_part (u_dev u) OWNER_CORE NS_MODULE)) (Some AL_DEVNO) (Some num) (Some K_MEMBERS))))
    with (store_key (group_spec OWNER_CORE DOM_ALIAS NS_MODULE AL_DEVNO num)).
  rewrite alias_store. change AL_DEVNO with (B "devno"). rewrite E, D. cbn [alias_loop]. unfold copy_ns_part_from_key. rewrite dseq_ns by apply Iv.
  rewrite (copy_ok v junk Iv L). cbn [obind]. eexists. reflexivity.
Qed.
Lemma devid_unknown d u num junk : number_unknown d num -> alias_to_devid d u OWNER_CORE AL_DEVNO num junk = Ok ((- ENODATA)%Z, junk).
Proof.
  intros E. unfold alias_to_devid, raw_alias_to_devid.
  change (canonicalize_key (compose_key (KeySpec None OP_SET (Some DOM_ALIAS) NS_MODULE (Some (get_ns_part (u_dev u) OWNER_CORE NS_MODULE)) (Some AL_DEVNO) (Some num) (Some K_MEMBERS))))
    with (store_key (group_spec OWNER_CORE DOM_ALIAS NS_MODULE AL_DEVNO num)).
  rewrite alias_store. change AL_DEVNO with (B "devno"). unfold number_unknown in E. rewrite E. reflexivity.
Qed.

(* The variables for udev *)
Lemma udev_at u num c : num_s (u_dev u) = Some num -> set_at u NS_UDEV c = udev_key num c.
Proof. intros E. rewrite set_text by auto. cbn [ns_eqb]. rewrite E. reflexivity. Qed.
Lemma udev_set s u num c v : num_s (u_dev u) = Some num -> exists d', core_set s u NS_UDEV c v FL_SYNC = Ok (with_db s d', 0%Z)
  /\ holds d' (udev_key num c) v /\ forall x, x <> udev_key num c -> recs d' x = recs (sc_db s) x.
Proof.
  intros E. unfold core_set. destruct (core_put (sc_db s) u NS_UDEV c (v ++ [NUL]) FL_SYNC (or_intror eq_refl)) as (d' & r & -> & Er & Ek & F).
  rewrite (udev_at u num c E) in Ek, F. cbn [obind]. exists d'. split; [reflexivity|]. split; [exists r; auto|]. intros x N. apply F; auto.
Qed.
Notation has_udev := udev_says.
Lemma has_udev_get d u num o : num_s (u_dev u) = Some num -> has_udev d num o -> core_get d u NS_UDEV K_SID_DEV_ID = Ok o.
Proof.
  intros E H. destruct (core_get_lemma d u NS_UDEV K_SID_DEV_ID (or_intror eq_refl)) as (C1 & C2). rewrite (udev_at u num _ E) in C1, C2.
  destruct o as [w|]; cbn [udev_says] in H; [apply C2; tauto|apply C1, H].
Qed.
Lemma tags_ne num num' : udev_key num K_SID_DEV_ID <> udev_key num' K_SID_TAGS.
Proof.
  intros Q. apply (f_equal (@rev _)) in Q. unfold udev_key in Q. rewrite !rev_app_distr in Q. discriminate Q.
Qed.
(* the two last steps *)
Lemma udev_steps s u num (o : option bytes) uid : num_s (u_dev u) = Some num ->
  exists d', (let! (s, r) := match o with None => core_set s u NS_UDEV K_SID_DEV_ID uid FL_SYNC | Some _ => Ok (s, 0%Z) end in
        if (r <? 0)%Z then Ok (s, Some uid, (-1)%Z)
        else
          let! (s, r) := core_set s u NS_UDEV K_SID_TAGS TAG_SID FL_SYNC in
          Ok (s, Some uid, if (r <? 0)%Z then (-1)%Z else 0%Z)) = Ok (with_db s d', Some uid, 0%Z)
    /\ only [udev_key num (B "SID_DEV_ID"); udev_key num (B ".SID_TAGS")] (sc_db s) d' /\ holds d' (udev_key num (B ".SID_TAGS")) (B "sid")
    /\ match o with None => holds d' (udev_key num (B "SID_DEV_ID")) uid | Some _ => recs d' (udev_key num (B "SID_DEV_ID")) = recs (sc_db s) (udev_key num (B "SID_DEV_ID")) end.
Proof.
  intros E. destruct o as [w|].
  - cbn [obind Z.ltb Z.compare]. destruct (udev_set s u num K_SID_TAGS TAG_SID E) as (d1 & -> & H & F). cbn [obind Z.ltb Z.compare]. exists d1. split; [reflexivity|].
    split; [|split; [exact H|]].
    + intros k N. apply F. intros ->. apply N. right. left. reflexivity.
    + apply F, tags_ne.
  - destruct (udev_set s u num K_SID_DEV_ID uid E) as (d1 & -> & H1 & F1). cbn [obind Z.ltb Z.compare].
    destruct (udev_set (with_db s d1) u num K_SID_TAGS TAG_SID E) as (d2 & -> & H2 & F2). cbn [obind Z.ltb Z.compare]. exists d2. split; [reflexivity|].
    cbn [with_db sc_db] in F2. split; [|split; [exact H2|]].
    + intros k N. rewrite F2, F1; [reflexivity| |]; intros ->; apply N; cbn; auto.
    + destruct H1 as (r & H1 & D1). exists r. split; [|exact D1]. change (B "SID_DEV_ID") with K_SID_DEV_ID. rewrite F2 by apply tags_ne. exact H1.
Qed.
Lemma known_lemma s u num v o dsq name junk gen : num_s (u_dev u) = Some num -> known_as (sc_db s) num v -> id_ok v -> length junk = 37 -> has_udev (sc_db s) num o ->
  exists d', set_dev_kvs s u dsq name junk gen = Ok (with_db s d', Some v, 0%Z)
    /\ only [udev_key num (B "SID_DEV_ID"); udev_key num (B ".SID_TAGS")] (sc_db s) d' /\ holds d' (udev_key num (B ".SID_TAGS")) (B "sid")
    /\ match o with None => holds d' (udev_key num (B "SID_DEV_ID")) v | Some _ => recs d' (udev_key num (B "SID_DEV_ID")) = recs (sc_db s) (udev_key num (B "SID_DEV_ID")) end.
Proof.
  intros En K Iv L U. unfold set_dev_kvs. rewrite (has_udev_get _ _ _ _ En U). cbn [obind].
  replace (Tok_Model.or_empty (num_s (u_dev u))) with num by (rewrite En; reflexivity).
  destruct (devid_known _ _ _ _ junk En K Iv L) as (rest & ->). cbn [obind]. change (negb (0 =? 0)%Z && negb (0 =? - ENODATA)%Z) with false. change (0 =? 0)%Z with true. cbv iota.
  rewrite (id_read v rest Iv). cbn [obind]. cbv zeta.
  destruct (udev_steps s (with_uid u v) num o v En) as (d' & E & R). exists d'. split; [|exact R]. rewrite <- E. destruct o; reflexivity.
Qed.
Lemma members_some d k x l : members d k = x :: l -> exists r, recs d k = Some r /\ r_data r = x :: l.
Proof. unfold members. destruct (recs d k) as [r|]; [|discriminate]. intros H. exists r. auto. Qed.
Lemma stored_members d k n : (n < 256)%N -> members d k = [le 4 n] -> stored d k = n.
Proof. intros Hn H. destruct (members_some d k _ _ H) as (r & E & D). unfold stored. rewrite E, D. apply number_le, Hn. Qed.
Lemma new_lemma s u num o uid dsq name junk gen : scan_start s -> num_s (u_dev u) = Some num -> number_unknown (sc_db s) num -> has_udev (sc_db s) num o ->
  match o with Some w => uid = w | None => gen = Some uid end -> no_colon uid ->
  exists d', set_dev_kvs s u dsq name junk gen = Ok (Scan d' (sc_phase s) RDY_UNPROCESSED RES_UNPROCESSED, Some uid, 0%Z)
    /\ device_added (sc_db s) d' num dsq name uid /\ holds d' (udev_key num (B ".SID_TAGS")) (B "sid")
    /\ holds d' (udev_key num (B "SID_DEV_ID")) uid /\ (forall k, main_key k -> sorted (members d' k)).
Proof.
  intros St En NU U G Nc. unfold set_dev_kvs. rewrite (has_udev_get _ _ _ _ En U). cbn [obind].
  replace (Tok_Model.or_empty (num_s (u_dev u))) with num by (rewrite En; reflexivity).
  rewrite (devid_unknown _ u num junk NU). cbn [obind]. change (negb (- ENODATA =? 0)%Z && negb (- ENODATA =? - ENODATA)%Z) with false. change (- ENODATA =? 0)%Z with false. cbv iota. cbn [obind].
  replace (match o with Some v => Some v | None => gen end) with (Some uid) by (destruct o; congruence).
  destruct (new_dev s (with_uid u uid) dsq name St Nc) as (d1 & E1 & M1 & M2 & SO & SY & ALL). cbv zeta. rewrite E1. cbn [obind Z.ltb Z.compare].
  cbn [dev_id with_uid u_dev uid_s num_s] in M1, M2, ALL. rewrite En in ALL. cbn [str] in ALL.
  destruct (udev_steps (Scan d1 (sc_phase s) RDY_UNPROCESSED RES_UNPROCESSED) (with_uid u uid) num o uid En) as (d2 & E2 & O & T & V). exists d2. split; [exact E2|].
  cbn [sc_db] in O, V. clear E1 E2.
  assert (ON : forall k, k <> udev_key num (B "SID_DEV_ID") -> k <> udev_key num (B ".SID_TAGS") -> recs d2 k = recs d1 k).
  { intros k N1 N2. apply O. intros [Q|[Q|[]]]; congruence. }
  assert (OM : forall k, k <> udev_key num (B "SID_DEV_ID") -> k <> udev_key num (B ".SID_TAGS") -> members d2 k = members d1 k).
  { intros k N1 N2. unfold members. rewrite ON by assumption. reflexivity. }
  assert (IN : forall cat id, In (cat, id) (three num dsq name) -> In (dev_item uid) (members d1 (alias_list cat id))).
  { intros cat id H. apply ALL; [reflexivity|discriminate|discriminate|]. right. left. split; [reflexivity|]. exists cat, id. auto. }
  assert (HI : holds d2 (udev_key num (B "SID_DEV_ID")) uid).
  { destruct o as [w|]; [|exact V]. destruct U as ((r & E & D) & _). subst w. unfold holds. rewrite V.
    assert (Q : members d1 (udev_key num (B "SID_DEV_ID")) = members (sc_db s) (udev_key num (B "SID_DEV_ID"))).
    { apply sorted_ext; [apply SO; reflexivity|apply St; reflexivity|]. intros x. rewrite ALL by (reflexivity || discriminate). split; [|auto].
      intros [H|[(_ & cat & id & _ & Q)|(Q & _)]]; [exact H|discriminate Q|discriminate Q]. }
    change (B "SID_DEV_ID") with K_SID_DEV_ID in *. apply members_some. rewrite Q. unfold members. rewrite E. exact D. }
  assert (HM : forall k v, holds d2 k v -> sorted (members d2 k)) by (intros k v (r & E & D); unfold members; rewrite E, D; apply sorted_one).
  split; [|split; [exact T|split; [exact HI|]]].
  - split; [|split; [|split; [|split]]].
    + apply stored_members; [reflexivity|]. rewrite OM by discriminate. exact M1.
    + apply stored_members; [reflexivity|]. rewrite OM by discriminate. exact M2.
    + unfold known_as. rewrite ON by discriminate. apply members_some. apply sorted_ext; [apply SO; reflexivity|apply sorted_one|].
      intros x. rewrite ALL by (reflexivity || discriminate). assert (Z : members (sc_db s) (alias_list (B "devno") num) = []) by (unfold members; unfold number_unknown in NU; rewrite NU; reflexivity).
      rewrite Z. cbn [In]. split.
      * intros [[]|[(-> & _)|(Q & _)]]; [auto|destruct (list_not_in _ _ _ Q)].
      * intros [<-|[]]. right. left. split; [reflexivity|]. exists (B "devno"), num. split; [right; left; reflexivity|reflexivity].
    + intros cat id H. rewrite !OM by discriminate. split; [apply IN, H|]. apply SY; [eexists; left; reflexivity|exact Nc|]. rewrite alias_members. apply IN, H.
    + intros k x Mk N. rewrite OM by (intros Q; apply N; cbn; auto). apply ALL; [exact Mk| |]; intros Q; apply N; cbn; auto.
  - intros k Mk. destruct (list_eq_dec ascii_dec k (udev_key num (B "SID_DEV_ID"))) as [->|N1]; [exact (HM _ _ HI)|].
    destruct (list_eq_dec ascii_dec k (udev_key num (B ".SID_TAGS"))) as [->|N2]; [exact (HM _ _ T)|]. rewrite OM by assumption. apply SO, Mk.
Qed.

Lemma no_id_lemma s u num dsq name junk : num_s (u_dev u) = Some num -> number_unknown (sc_db s) num -> lacks (sc_db s) (udev_key num (B "SID_DEV_ID")) ->
  set_dev_kvs s u dsq name junk None = Ok (s, None, (-1)%Z).
Proof.
  intros En NU U. unfold set_dev_kvs. rewrite (has_udev_get _ _ _ None En U). cbn [obind].
  replace (Tok_Model.or_empty (num_s (u_dev u))) with num by (rewrite En; reflexivity). rewrite (devid_unknown _ u num junk NU). reflexivity.
Qed.
(* An id that is too long *)
Lemma long_devid d u num v junk : num_s (u_dev u) = Some num -> known_as d num v -> no_colon v -> length junk = 37 -> 36 < length v ->
  alias_to_devid d u OWNER_CORE AL_DEVNO num junk = Ok ((- ENOBUFS)%Z, junk).
Proof.
  intros En (r & E & D) Nv L G. unfold alias_to_devid, raw_alias_to_devid.
  change (canonicalize_key (compose_key (KeySpec None OP_SET (Some DOM_ALIAS) NS_MODULE (Some (get_ns_part (u_dev u) OWNER_CORE NS_MODULE)) (Some AL_DEVNO) (Some num) (Some K_MEMBERS))))
    with (store_key (group_spec OWNER_CORE DOM_ALIAS NS_MODULE AL_DEVNO num)).
  rewrite alias_store. change AL_DEVNO with (B "devno"). rewrite E, D. cbn [alias_loop]. unfold copy_ns_part_from_key. rewrite dseq_ns by exact Nv. unfold copy_part.
  destruct (UtilStr_Model.INT_MAX <? N.of_nat (length v))%N; [reflexivity|]. rewrite L.
  replace ((N.of_nat 37 =? 0) || (N.of_nat 37 - 1 <? N.of_nat (length v)))%N with true by lia. reflexivity.
Qed.
Lemma long_lemma s u num v o dsq name junk gen : num_s (u_dev u) = Some num -> known_as (sc_db s) num v -> no_colon v -> 36 < length v -> length junk = 37 ->
  has_udev (sc_db s) num o -> set_dev_kvs s u dsq name junk gen = Ok (s, None, (-1)%Z).
Proof.
  intros En K Nv G L U. unfold set_dev_kvs. rewrite (has_udev_get _ _ _ o En U). cbn [obind].
  replace (Tok_Model.or_empty (num_s (u_dev u))) with num by (rewrite En; reflexivity). rewrite (long_devid _ _ _ _ _ En K Nv L G). reflexivity.
Qed.

(* The module of a device *)
Lemma module_at u : set_at u NS_DEVICE K_MOD = module_key (dev_id u).
Proof. rewrite set_text by auto. reflexivity. Qed.
Lemma module_stored s u n lookup : holds (sc_db s) (module_key (dev_id u)) n -> ~ In NUL n -> get_base_mod_name s u lookup = Ok (s, Some n).
Proof.
  intros H N. unfold get_base_mod_name. destruct (core_get_lemma (sc_db s) u NS_DEVICE K_MOD (or_introl eq_refl)) as (_ & C). rewrite module_at in C. rewrite (C n H N). reflexivity.
Qed.
Lemma module_found s u n : lacks (sc_db s) (module_key (dev_id u)) -> exists d', get_base_mod_name s u (Ok (Some n)) = Ok (with_db s d', Some n)
  /\ holds d' (module_key (dev_id u)) n /\ only [module_key (dev_id u)] (sc_db s) d'.
Proof.
  intros H. unfold get_base_mod_name. destruct (core_get_lemma (sc_db s) u NS_DEVICE K_MOD (or_introl eq_refl)) as (C & _). rewrite module_at in C. rewrite (C H). cbn [obind].
  unfold core_set. destruct (core_put (sc_db s) u NS_DEVICE K_MOD (n ++ [NUL]) FLAGS_CORE (or_introl eq_refl)) as (d' & r & -> & Er & Ek & F). cbn [obind Z.ltb Z.compare].
  rewrite module_at in Ek, F. exists d'. split; [reflexivity|]. split; [exists r; auto|]. intros k N. apply F; [intros ->; apply N; cbn; auto|left; reflexivity].
Qed.
Lemma module_none s u : lacks (sc_db s) (module_key (dev_id u)) -> get_base_mod_name s u (Ok None) = Ok (s, None).
Proof.
  intros H. unfold get_base_mod_name. destruct (core_get_lemma (sc_db s) u NS_DEVICE K_MOD (or_introl eq_refl)) as (C & _). rewrite module_at in C. rewrite (C H). reflexivity.
Qed.

(* Over time *)
Lemma core_get_any d u n c : n = NS_DEVICE \/ n = NS_UDEV -> core_get d u n c = Ok None -> lacks d (set_at u n c).
Proof.
  intros H E r Er. unfold core_get, cmd_get_key_value in E. rewrite (get_text u n c H), Er in E. unfold mod_match in E. change (key_eqb OWNER_CORE OWNER_CORE) with true in E. cbv iota in E.
  destruct (r_data r) as [|x l]; [reflexivity|]. cbn [fst] in E. destruct (string_at x); discriminate E.
Qed.
Lemma module_only s u lookup s' n : get_base_mod_name s u lookup = Ok (s', n) ->
  s' = s \/ (lacks (sc_db s) (module_key (dev_id u)) /\ only [module_key (dev_id u)] (sc_db s) (sc_db s')).
Proof.
  intros E. pose proof E as E0. unfold get_base_mod_name in E. destruct (core_get (sc_db s) u NS_DEVICE K_MOD) as [[v|]|] eqn:G; try discriminate E; cbn [obind] in E; [injection E as <- _; auto|].
  apply core_get_any in G; [|auto]. rewrite module_at in G. destruct lookup as [[m|]|]; cbn [obind] in E; try discriminate E; [|injection E as <- _; auto].
  destruct (module_found s u m G) as (d' & E1 & _ & O). rewrite E1 in E0. injection E0 as <- _. right. split; [exact G|exact O].
Qed.
Definition settled (a m : option (bytes * bytes)) (d : db) : Prop :=
  match a with Some (num, v) => known_as d num v | None => True end /\ match m with Some (uid, n) => holds d (module_key uid) n | None => True end.
Lemma module_not_list uid cat id : module_key uid <> alias_list cat id. Proof. discriminate. Qed.
Lemma alias_number num num' cat id dsq name : In (cat, id) (three num' dsq name) -> alias_list (B "devno") num = alias_list cat id -> num = num'.
Proof.
  intros [H|[H|[H|[]]]]; injection H as <- <-; intros Q; try discriminate Q. unfold alias_list in Q. do 3 apply app_inv_head in Q. apply app_inv_tail in Q. exact Q.
Qed.
Lemma settled_kept a m d d' : settled a m d -> (forall num, recs d' (alias_list (B "devno") num) = recs d (alias_list (B "devno") num)) ->
  (forall uid n, m = Some (uid, n) -> recs d' (module_key uid) = recs d (module_key uid)) -> settled a m d'.
Proof.
  intros (K & H) E1 E2. split; [destruct a as [(num, v)|]; [unfold known_as in *; rewrite E1; exact K|exact I]|]. destruct m as [(uid, n)|]; [|exact I]. unfold holds in *. rewrite (E2 uid n eq_refl). exact H.
Qed.
Lemma added_keeps d d' num' dsq name uid k x : (forall k, main_key k -> sorted (members d' k)) -> sorted (members d k) -> main_key k ->
  device_added d d' num' dsq name uid -> (forall cat id, In (cat, id) (three num' dsq name) -> k <> alias_list cat id) -> k <> in_of (dev_item uid) ->
  ~ In k [ready_key uid; reserved_key uid; udev_key num' (B "SID_DEV_ID"); udev_key num' (B ".SID_TAGS")] -> members d k = [x] -> members d' k = [x].
Proof.
  intros SO S Mk (_ & _ & _ & _ & A) N1 N2 N3 E. rewrite <- E. apply sorted_ext; [apply SO, Mk|exact S|]. intros y. rewrite (A k y Mk N3). split; [|auto].
  intros [H|[(_ & cat & id & H & Q)|(Q & _)]]; [exact H|destruct (N1 _ _ H Q)|contradiction].
Qed.

Lemma module_aside uid uid' num : ~ In (module_key uid) [ready_key uid'; reserved_key uid'; udev_key num (B "SID_DEV_ID"); udev_key num (B ".SID_TAGS")] /\ module_key uid <> in_of (dev_item uid').
Proof.
  assert (G : forall k, last k NUL <> "D"%char -> module_key uid <> k).
  { intros k H Q. apply H. rewrite <- Q. unfold module_key. change (B ":::#MOD") with (B ":::#MO" ++ ["D"%char]). rewrite !app_assoc. apply last_last. }
  assert (L : forall p x (c : ascii), last (p ++ x ++ [c]) NUL = c) by (intros p x c; rewrite app_assoc; apply last_last).
  split.
  - intros [Q|[Q|[Q|[Q|[]]]]]; [symmetry in Q; revert Q; apply G..|discriminate Q|discriminate Q].
    + unfold ready_key. change (B ":::#RDY") with (B ":::#RD" ++ ["Y"%char]). rewrite app_assoc, L. discriminate.
    + unfold reserved_key. change (B ":::#RES") with (B ":::#RE" ++ ["S"%char]). rewrite app_assoc, L. discriminate.
  - apply G. unfold in_of. change (B "#GIN") with (B "#GI" ++ ["N"%char]). rewrite L. discriminate.
Qed.
Lemma kept_lemma a m d d' : activity d d' -> settled a m d -> settled a m d'.
Proof.
  intros A. induction A as [d|s u num' o dsq name junk gen s' id r d St En K U Nc L E A IH|s u lookup s' n d E A IH|d d1 d2 E A IH]; intros S; [exact S|apply IH..].
  - destruct K as [NU|(v' & K & Iv')].
    + destruct (match o with Some w => Some w | None => gen end) as [uid|] eqn:G.
      * assert (Nu : no_colon uid) by (apply Nc; destruct o; auto).
        destruct (new_lemma s u num' o uid dsq name junk gen St En NU U) as (d1 & E1 & AD & _ & _ & SO); [destruct o; congruence|exact Nu|].
        rewrite E1 in E. injection E as <- _ _. cbn [sc_db]. destruct S as (K & H). split.
        -- destruct a as [(num, v)|]; [|exact I]. destruct K as (r0 & K1 & K2). apply members_some.
           eapply added_keeps; try eassumption; [apply St; reflexivity|reflexivity| |discriminate| |unfold members; rewrite K1; exact K2].
           ++ intros cat id0 H0 Q. apply (alias_number num num' cat id0 dsq name H0) in Q. subst num'. unfold number_unknown in NU. congruence.
           ++ intros [Q|[Q|[Q|[Q|[]]]]]; discriminate Q.
        -- destruct m as [(ui, n)|]; [|exact I]. destruct H as (r0 & K1 & K2). apply members_some.
           eapply added_keeps; try eassumption; [apply St; reflexivity|reflexivity|discriminate| | |unfold members; rewrite K1; exact K2]; [exact (proj2 (module_aside ui uid []))|exact (proj1 (module_aside ui uid num'))].
      * destruct o; [discriminate|]. subst gen. rewrite (no_id_lemma s u num' dsq name junk En NU U) in E. injection E as <- _ _. exact S.
    + destruct (known_lemma s u num' v' o dsq name junk gen En K Iv' L U) as (d1 & E1 & O & _). rewrite E1 in E. injection E as <- _ _. cbn [with_db sc_db].
      apply (settled_kept _ _ _ _ S); [intros nu; apply O; intros [Q|[Q|[]]]; discriminate Q|]. intros ui n _. apply O. intros [Q|[Q|[]]]; discriminate Q.
  - destruct (module_only _ _ _ _ _ E) as [->|(La & O)]; [exact S|]. apply (settled_kept _ _ _ _ S).
    + intros nu. apply O. intros [Q|[]]; discriminate Q.
    + intros ui m0 ->. apply O. intros [Q|[]]. destruct S as (_ & r0 & K1 & K2). rewrite Q in La. specialize (La _ K1). rewrite K2 in La. destruct m0; discriminate La.
  - apply (settled_kept _ _ _ _ S); [intros nu; apply E; reflexivity|]. intros ui n _. apply E. reflexivity.
Qed.
Lemma id_kept_lemma s u num o dsq name junk gen s1 v d2 : scan_start s -> num_s (u_dev u) = Some num -> number_unknown (sc_db s) num -> udev_says (sc_db s) num o ->
  set_dev_kvs s u dsq name junk gen = Ok (s1, Some v, 0%Z) -> id_ok v -> activity (sc_db s1) d2 ->
  forall s2 u2 o2 dsq2 name2 junk2 gen2, sc_db s2 = d2 -> num_s (u_dev u2) = Some num -> udev_says d2 num o2 -> length junk2 = 37 ->
  exists d', set_dev_kvs s2 u2 dsq2 name2 junk2 gen2 = Ok (with_db s2 d', Some v, 0%Z)
    /\ only [udev_key num (B "SID_DEV_ID"); udev_key num (B ".SID_TAGS")] d2 d'.
Proof.
  intros St En NU U E Iv A s2 u2 o2 dsq2 name2 junk2 gen2 <- En2 U2 L2.
  assert (K : known_as (sc_db s1) num v).
  { destruct (match o with Some w => Some w | None => gen end) as [uid|] eqn:G.
    - assert (uid = v) as ->.
      { unfold set_dev_kvs in E. rewrite (has_udev_get _ _ _ _ En U) in E. cbn [obind] in E. replace (Tok_Model.or_empty (num_s (u_dev u))) with num in E by (rewrite En; reflexivity).
        rewrite (devid_unknown _ u num junk NU) in E. cbn [obind] in E. change (negb (- ENODATA =? 0)%Z && negb (- ENODATA =? - ENODATA)%Z) with false in E. change (- ENODATA =? 0)%Z with false in E. cbv iota in E. cbn [obind] in E.
        rewrite G in E. clear - E. repeat match type of E with
          | (let! _ := ?x in _) = _ => destruct x as [[? ?]|]; cbn [obind] in E; [|discriminate E]
          | (if ?b then _ else _) = _ => destruct b; [injection E; congruence|]
          | _ => idtac end. all: try (injection E; congruence).
        }
      destruct (new_lemma s u num o v dsq name junk gen St En NU U) as (d1 & E1 & (_ & _ & K & _) & _); [destruct o; congruence|apply Iv|].
      rewrite E1 in E. injection E as <-. exact K.
    - destruct o; [discriminate|]. subst gen. rewrite (no_id_lemma s u num dsq name junk En NU U) in E. discriminate E. }
  destruct (kept_lemma (Some (num, v)) None _ _ A (conj K I)) as (K2 & _).
  destruct (known_lemma s2 u2 num v o2 dsq2 name2 junk2 gen2 En2 K2 Iv L2 U2) as (d' & E2 & O & _). exists d'. auto.
Qed.
Lemma reused_lemma s u num v o dsq name junk gen : num_s (u_dev u) = Some num -> known_as (sc_db s) num v -> id_ok v -> length junk = 37 -> udev_says (sc_db s) num o ->
  exists d', set_dev_kvs s u dsq name junk gen = Ok (with_db s d', Some v, 0%Z)
    /\ (forall cat id, recs d' (alias_list cat id) = recs (sc_db s) (alias_list cat id))
    /\ forall n lookup, holds (sc_db s) (module_key v) n -> ~ In NUL n -> get_base_mod_name (with_db s d') (with_uid u v) lookup = Ok (with_db s d', Some n).
Proof.
  intros En K Iv L U. destruct (known_lemma s u num v o dsq name junk gen En K Iv L U) as (d' & E & O & _). exists d'. split; [exact E|]. split.
  - intros cat id. apply O. intros [Q|[Q|[]]]; discriminate Q.
  - intros n lookup H N. apply module_stored; [|exact N]. cbn [dev_id with_uid u_dev uid_s with_db sc_db]. unfold holds. rewrite O; [exact H|]. intros [Q|[Q|[]]]; discriminate Q.
Qed.
Lemma differ_lemma s u num v w dsq name junk gen : num_s (u_dev u) = Some num -> known_as (sc_db s) num v -> id_ok v -> length junk = 37 ->
  holds (sc_db s) (udev_key num (B "SID_DEV_ID")) w -> ~ In NUL w ->
  exists d', set_dev_kvs s u dsq name junk gen = Ok (with_db s d', Some v, 0%Z) /\ holds d' (udev_key num (B "SID_DEV_ID")) w.
Proof.
  intros En K Iv L H N. destruct (known_lemma s u num v (Some w) dsq name junk gen En K Iv L (conj H N)) as (d' & E & _ & _ & V). exists d'. split; [exact E|].
  unfold holds. rewrite V. exact H.
Qed.
Lemma unchecked_lemma s u num w dsq name junk gen : scan_start s -> num_s (u_dev u) = Some num -> number_unknown (sc_db s) num ->
  holds (sc_db s) (udev_key num (B "SID_DEV_ID")) w -> ~ In NUL w -> no_colon w -> 36 < length w ->
  exists s', set_dev_kvs s u dsq name junk gen = Ok (s', Some w, 0%Z)
    /\ forall s2 u2 dsq2 name2 junk2 gen2, sc_db s2 = sc_db s' -> num_s (u_dev u2) = Some num -> length junk2 = 37 -> set_dev_kvs s2 u2 dsq2 name2 junk2 gen2 = Ok (s2, None, (-1)%Z).
Proof.
  intros St En NU H N Nc G. destruct (new_lemma s u num (Some w) w dsq name junk gen St En NU (conj H N) eq_refl Nc) as (d' & E & (_ & _ & K & _) & _ & H' & _).
  eexists. split; [exact E|]. cbn [sc_db]. intros s2 u2 dsq2 name2 junk2 gen2 Es En2 L2. apply (long_lemma s2 u2 num w (Some w)); try assumption; rewrite Es; [exact K|split; assumption].
Qed.
Lemma module_kept_lemma s u n s1 d2 : get_base_mod_name s u (Ok (Some n)) = Ok (s1, Some n) -> lacks (sc_db s) (module_key (dev_id u)) -> ~ In NUL n ->
  activity (sc_db s1) d2 ->
  forall s2 u2 lookup, sc_db s2 = d2 -> dev_id u2 = dev_id u -> get_base_mod_name s2 u2 lookup = Ok (s2, Some n).
Proof.
  intros E La N A s2 u2 lookup <- Eu. destruct (module_found s u n La) as (d' & E1 & H & _). rewrite E1 in E. injection E as <-. cbn [with_db sc_db] in *.
  destruct (kept_lemma None (Some (dev_id u, n)) _ _ A (conj I H)) as (_ & H2).
  apply module_stored; [rewrite Eu; exact H2|exact N].
Qed.
