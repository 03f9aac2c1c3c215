From Verif Require Import Base Kvs_Model Tok_Model UbrKey_Model UbrKey_Spec UbrKey_Proofs UbrDb_Model UbrPerm_Spec UbrPerm_Proofs UbrDelta_Model UbrDelta_Proofs UbrRec_Model UbrRec_Proofs
  UbrScan_Model UbrScan_Spec.
Local Open Scope nat_scope.

(* Phases *)
Lemma passed_dec r : passed r <-> ((r =? 0)%Z || (r =? 1)%Z) = true.
Proof. unfold passed. lia. Qed.

(* Keys *)
Definition state_key (u : ucmd) (c : bytes) : bytes := B "::D:" ++ dev_id u ++ B ":::" ++ c.
Lemma set_key u w c : canonicalize_key (skipn 1 (compose_key (set_spec (u_dev u) w None NS_DEVICE c))) = state_key u c.
Proof.
  rewrite key_tail_lemma by reflexivity. rewrite canon_joined. unfold state_key, dev_id, parts_of, joined.
  cbn [ks_op ks_dom ks_ns ks_ns_part ks_id_cat ks_id ks_core set_spec str op_text ns_text get_ns_part ns_eqb B app].
  unfold Tok_Model.or_empty. destruct (uid_s (u_dev u)); reflexivity.
Qed.
Lemma set_arch u w c : canonicalize_key (with_prefix C_ARCHIVE (compose_key (set_spec (u_dev u) w None NS_DEVICE c))) = "~"%char :: state_key u c.
Proof. rewrite <- (set_key u w c), key_tail_lemma by reflexivity. rewrite canon_joined, compose_joined. reflexivity. Qed.
Lemma get_key u w c a : canonicalize_key (compose_key (get_spec (u_dev u) w None NS_DEVICE c a None None)) =
  (if a =? 1 then B "~" else []) ++ state_key u c.
Proof.
  rewrite canon_compose. unfold state_key, dev_id, parts_of, joined, get_spec.
  cbn [ks_extra ks_op ks_dom ks_ns ks_ns_part ks_id_cat ks_id ks_core str op_text ns_text get_ns_part ns_eqb B app].
  unfold Tok_Model.or_empty. destruct (a =? 1), (uid_s (u_dev u)); reflexivity.
Qed.
Lemma arch_other u c : "~"%char :: state_key u c <> state_key u c.
Proof. discriminate. Qed.
Lemma ready_is_key u : ready_key (dev_id u) = state_key u K_READY. Proof. reflexivity. Qed.
Lemma reserved_is_key u : reserved_key (dev_id u) = state_key u K_RESERVED. Proof. reflexivity. Qed.
Lemma keys_differ u : state_key u K_READY <> state_key u K_RESERVED.
Proof. unfold state_key. intros H. apply app_inv_head, app_inv_head, app_inv_head in H. discriminate H. Qed.

(* Writing a state *)
Definition state_rec (u : ucmd) (w : bytes) (n : N) (sync : bool) : rec := Rec (u_seq u) (state_flags sync) (u_gen u) w [le 4 n].
Lemma global_nonneg d w dom n c : (check_global_kv_rs_for_wr d w dom n c <? 0)%Z = false.
Proof.
  apply Z.ltb_ge. unfold check_global_kv_rs_for_wr.
  destruct n; try lia; destruct (recs d _) as [o|]; try lia; destruct (has (r_flags o) FL_RS); cbn [negb]; try lia;
    destruct (mod_match (r_owner o) w); repeat match goal with |- context [if ?b then _ else _] => destruct b end; lia.
Qed.
Definition written (d d' : db) (u : ucmd) (c w : bytes) (n : N) (sync : bool) : Prop :=
  recs d' (state_key u c) = Some (state_rec u w n sync)
  /\ recs d' ("~"%char :: state_key u c) = match recs d (state_key u c) with Some o => Some o | None => recs d ("~"%char :: state_key u c) end
  /\ (forall x, x <> state_key u c -> x <> "~"%char :: state_key u c -> recs d' x = recs d x).
Lemma state_put d u w c n sync : exists d',
  do_kv_set d u w None NS_DEVICE c (Some (le 4 n)) (state_flags sync) false =
    (if (check_kv_wr_allowed (recs d (state_key u c)) w <? 0)%Z then UB else Ok (d', 0%Z, Some (state_rec u w n sync)))
  /\ written d d' u c w n sync.
Proof.
  unfold do_kv_set. cbn [ns_eqb andb]. rewrite global_nonneg. unfold kvs_set. rewrite set_key.
  replace (has (state_flags sync) FL_AR) with true by (destruct sync; reflexivity). rewrite set_arch.
  unfold cb_write. cbn [r_owner]. fold (state_rec u w n sync).
  set (k := state_key u c). set (z := check_kv_wr_allowed (recs d k) w).
  set (m := match recs d k with Some o => put (put (recs d) k (Some (state_rec u w n sync))) ("~"%char :: k) (Some o)
            | None => put (recs d) k (Some (state_rec u w n sync)) end).
  assert (W : forall code, written d (manage_kv_index (Db m (indexed d)) code k) u c w n sync).
  { intros code. unfold written. rewrite index_recs. cbn [recs]. unfold m. fold k.
    assert (N1 : key_eqb ("~"%char :: k) k = false) by (destruct (key_eqb_spec ("~"%char :: k) k) as [e|e]; [destruct (arch_other _ _ e)|reflexivity]).
    assert (N2 : key_eqb k ("~"%char :: k) = false) by (destruct (key_eqb_spec k ("~"%char :: k)) as [e|e]; [destruct (arch_other _ _ (eq_sym e))|reflexivity]).
    destruct (recs d k) as [o|] eqn:E; unfold put.
    - rewrite N2, !key_eqb_refl. repeat split; intros x A1 A2. destruct (key_eqb_spec x ("~"%char :: k)); [contradiction|].
      destruct (key_eqb_spec x k); [contradiction|reflexivity].
    - rewrite N1, !key_eqb_refl. repeat split; intros x A1 A2. destruct (key_eqb_spec x k); [contradiction|reflexivity]. }
  destruct (z <? 0)%Z.
  - eexists. split; [reflexivity|apply (W 0%Z)].
  - eexists. split; [|apply (W (check_kv_index_needed false (recs d k) (Some (state_rec u w n sync))))].
    unfold m. destruct (recs d k); reflexivity.
Qed.
Lemma number_unle x : 4 <= length x -> unle (firstn 4 x) = number x.
Proof.
  destruct x as [|a [|b [|c [|e x]]]]; cbn [length]; try lia. intros _. cbn [firstn unle number]. lia.
Qed.
Lemma number_le n : (n < 256)%N -> number (le 4 n) = n.
Proof.
  intros H. rewrite <- number_unle by (rewrite le_length; lia). rewrite firstn_all2 by (rewrite le_length; lia). apply unle4. lia.
Qed.
Lemma stored_written d d' u c w n sync : (n < 256)%N -> written d d' u c w n sync -> stored d' (state_key u c) = n.
Proof. intros H (E & _). unfold stored. rewrite E. apply number_le, H. Qed.
Lemma stored_other d d' u c k w n sync : written d d' u c w n sync -> k <> state_key u c -> k <> "~"%char :: state_key u c -> stored d' k = stored d k.
Proof. intros (_ & _ & E) H1 H2. unfold stored. rewrite (E _ H1 H2). reflexivity. Qed.

(* Reading a state *)
Lemma get_int_cases d u w c v : get_int d u w c 0 = Ok v -> v = None \/ v = Some (stored d (state_key u c)).
Proof.
  unfold get_int, cmd_get_key_value. rewrite get_key. cbn [Nat.eqb app]. unfold stored.
  destruct (recs d (state_key u c)) as [o|]; [|intros E; left; cbn [fst read_int] in E; congruence].
  set (rd := match mod_match (r_owner o) w with MOD_NO_MATCH => _ | _ => _ end). clearbody rd.
  destruct rd; [|intros E; left; cbn [fst read_int] in E; congruence].
  destruct (r_data o) as [|x l]; cbn [fst read_int]; [intros E; left; congruence|].
  destruct (length x <? 4) eqn:L; [discriminate|]. intros E. right. rewrite number_unle in E by lia. congruence.
Qed.
Lemma get_int_open d u w c o x l a : recs d ((if a =? 1 then B "~" else []) ++ state_key u c) = Some o -> N.land (r_flags o) FL_RD = FL_RD -> r_data o = x :: l -> 4 <= length x ->
  get_int d u w c a = Ok (Some (number x)).
Proof.
  intros Ho F D L. unfold get_int.
  rewrite (readable_get d w (compose_key (get_spec (u_dev u) w None NS_DEVICE c a None None)) o);
    [|rewrite get_key; exact Ho|exact F|rewrite D; discriminate].
  rewrite D. cbn [read_int]. rewrite (proj2 (Nat.ltb_ge _ _) L). rewrite number_unle by exact L. reflexivity.
Qed.
(* Records of the requests of modules are other records *)
Definition apart (k : bytes) : Prop := forall u c, k <> state_key u c.
Lemma record_apart u w n c : apart (record_key u w n c).
Proof. intros u' c'. unfold record_key, state_key. destruct n; discriminate. Qed.
Lemma archive_apart k : apart ("~"%char :: k).
Proof. intros u' c'. discriminate. Qed.
Lemma reservation_apart n c : apart (reservation_key n c).
Proof. intros u' c'. unfold reservation_key, state_key. destruct n; discriminate. Qed.
Lemma put_apart m k v u c : apart k -> put m k v (state_key u c) = m (state_key u c).
Proof. intros H. unfold put. destruct (key_eqb_spec (state_key u c) k) as [e|]; [destruct (H u c (eq_sym e))|reflexivity]. Qed.
Lemma kvs_set_apart d key new arch cb d' code st u c : kvs_set d key new arch cb = (d', code, st) -> apart (canonicalize_key key) ->
  (forall a, arch = Some a -> apart (canonicalize_key a)) -> recs d' (state_key u c) = recs d (state_key u c).
Proof.
  unfold kvs_set. intros E H1 H2. destruct (cb _ new) as (z, ok). destruct ok; [|congruence].
  injection E as <- _ _. cbn [recs]. destruct arch as [a|]; [destruct (recs d _) as [o|]|]; rewrite ?put_apart; auto.
Qed.
Lemma kv_set_apart d u w n c v f d' r st u' c' : kv_set d u w n c v f = Ok (d', r, st) -> recs d' (state_key u' c') = recs d (state_key u' c').
Proof.
  intros E. destruct (ns_eqb n NS_UNDEFINED || bad_name c) eqn:G.
  - unfold kv_set in E. rewrite G in E. congruence.
  - rewrite (kv_set_unfold d u w n c v f (proj2 (good_bad n c) G)) in E.
    destruct (kvs_set _ _ _ _ _) as ((d1, code), st1) eqn:K.
    assert (R : recs d1 (state_key u' c') = recs d (state_key u' c')).
    { apply (kvs_set_apart _ _ _ _ _ _ _ _ u' c' K); [rewrite rec_key; apply record_apart|].
      intros a Ha. destruct (has _ FL_AR); [|discriminate]. apply some_inj in Ha as <-. rewrite arch_key. apply archive_apart. }
    destruct v, st1; try discriminate; injection E as <- _ _; rewrite index_recs; exact R.
Qed.
Lemma reserve_apart d g w n c f wk d' r u' c' : kv_reserve d g w n c f wk = Ok (d', r) -> recs d' (state_key u' c') = recs d (state_key u' c').
Proof.
  unfold kv_reserve, do_reserve. destruct (bad_name c); [congruence|]. cbn [andb]. destruct (has _ FL_ALIGN); [discriminate|].
  destruct (kvs_set _ _ _ _ _) as ((d1, code), st1) eqn:K. intros E. injection E as <- _. rewrite index_recs.
  apply (kvs_set_apart _ _ _ _ _ _ _ _ u' c' K); [rewrite res_key; apply reservation_apart|discriminate].
Qed.
Lemma unreserve_apart d g w n c wk d' r u' c' : kv_unreserve d g w n c wk = Ok (d', r) -> recs d' (state_key u' c') = recs d (state_key u' c').
Proof.
  unfold kv_unreserve, do_reserve. destruct (bad_name c); [congruence|]. destruct wk; cbn [andb negb].
  - destruct (has _ FL_ALIGN); [discriminate|].
    destruct (kvs_set _ _ _ _ _) as ((d1, code), st1) eqn:K. intros E. injection E as <- _. rewrite index_recs.
    apply (kvs_set_apart _ _ _ _ _ _ _ _ u' c' K); [rewrite res_key; apply reservation_apart|discriminate].
  - unfold kvs_unset. destruct (cb_reserve _ _ _ _) as (z, ok). rewrite res_key. destruct ok; intros E; [|congruence].
    assert (D : d' = Db (put (recs d) (reservation_key n c) None) (indexed d)) by congruence. rewrite D. cbn [recs].
    apply put_apart, reservation_apart.
Qed.
Lemma stored_same d d' k : recs d' k = recs d k -> stored d' k = stored d k.
Proof. unfold stored. intros ->. reflexivity. Qed.

(* The rules of changes *)
Lemma ready_refused_iff s n : (s <= 8)%N -> (n <= 8)%N -> (ready_refused s n = false <-> ready_move s n).
Proof.
  intros H1 H2. unfold ready_move, RDY_UNDEFINED, RDY_UNPROCESSED, RDY_UNCONFIGURED.
  assert (A : In s [0;1;2;3;4;5;6;7;8]%N) by (cbn [In]; lia). assert (A' : In n [0;1;2;3;4;5;6;7;8]%N) by (cbn [In]; lia). clear H1 H2.
  cbn [In] in A, A'. repeat (destruct A as [<-|A]; [repeat (destruct A' as [<-|A']; [cbn; lia|]); contradiction|]). contradiction.
Qed.
Lemma reserved_refused_iff s n : (n <= 4)%N -> (reserved_refused s n = false <-> reserved_move s n).
Proof.
  intros H2. unfold reserved_move, RES_UNDEFINED, RES_UNPROCESSED.
  assert (A' : In n [0;1;2;3;4]%N) by (cbn [In]; lia). clear H2.
  cbn [In] in A'. repeat (destruct A' as [<-|A']; [cbn; unfold RES_UNDEFINED; lia|]); contradiction.
Qed.
Lemma cap_ready p : has (phase_flags p) CAP_RDY = true <-> may_set_ready p.
Proof.
  unfold may_set_ready. cbn [In]. unfold A_INIT, A_SCAN_PRE, A_SCAN_CURRENT, A_EXIT, REMOVE_INIT, B_INIT.
  do 14 (destruct p as [|p]; [cbn; intuition (try discriminate; try reflexivity)|]). cbn. split; [discriminate|lia].
Qed.
Lemma cap_reserved p : has (phase_flags p) CAP_RES = true <-> may_set_reserved p.
Proof.
  unfold may_set_reserved. cbn [In]. unfold A_INIT, A_SCAN_NEXT, A_EXIT, REMOVE_INIT, B_INIT.
  do 14 (destruct p as [|p]; [cbn; intuition (try discriminate; try reflexivity)|]). cbn. split; [discriminate|lia].
Qed.

(* C60, C61: one request *)
Lemma set_ready_lemma s u w n sync : (n <= 8)%N -> (sc_ready s <= 8)%N ->
  (~ may_set_ready (sc_phase s) -> set_ready s u w n sync = Ok (s, (- EPERM)%Z))
  /\ (may_set_ready (sc_phase s) -> n = sc_ready s -> set_ready s u w n sync = Ok (s, 0%Z))
  /\ (may_set_ready (sc_phase s) -> n <> sc_ready s -> ~ ready_move (sc_ready s) n -> set_ready s u w n sync = Ok (s, (- EBADRQC)%Z))
  /\ (may_set_ready (sc_phase s) -> n <> sc_ready s -> ready_move (sc_ready s) n ->
      exists d', set_ready s u w n sync = (if (check_kv_wr_allowed (recs (sc_db s) (ready_key (dev_id u))) w <? 0)%Z then UB
         else Ok (Scan d' (sc_phase s) n (sc_reserved s), 0%Z)) /\ written (sc_db s) d' u K_READY w n sync).
Proof.
  intros Hn Hs. unfold set_ready. replace ((8 <? n) || (8 <? sc_ready s))%N with false by lia. rewrite <- cap_ready, <- (ready_refused_iff _ _ Hs Hn).
  destruct (has (phase_flags (sc_phase s)) CAP_RDY); cbn [negb].
  - split; [congruence|]. split; [intros _ ->; rewrite N.eqb_refl; reflexivity|]. split; intros _ Ne M; rewrite (proj2 (N.eqb_neq _ _) Ne).
    + destruct (ready_refused (sc_ready s) n); congruence.
    + rewrite M. destruct (state_put (sc_db s) u w K_READY n sync) as (d' & E & W). exists d'. rewrite E, ready_is_key.
      split; [|exact W]. destruct (check_kv_wr_allowed _ w <? 0)%Z; reflexivity.
  - split; [reflexivity|]. repeat split; intros; congruence.
Qed.
Lemma set_reserved_lemma s u w n sync : (n <= 4)%N -> (sc_reserved s <= 4)%N ->
  (~ may_set_reserved (sc_phase s) -> set_reserved s u w n sync = Ok (s, (- EPERM)%Z))
  /\ (may_set_reserved (sc_phase s) -> n = sc_reserved s -> set_reserved s u w n sync = Ok (s, 0%Z))
  /\ (may_set_reserved (sc_phase s) -> n <> sc_reserved s -> ~ reserved_move (sc_reserved s) n -> set_reserved s u w n sync = Ok (s, (- EBADRQC)%Z))
  /\ (may_set_reserved (sc_phase s) -> n <> sc_reserved s -> reserved_move (sc_reserved s) n ->
      exists d', set_reserved s u w n sync = (if (check_kv_wr_allowed (recs (sc_db s) (reserved_key (dev_id u))) w <? 0)%Z then UB
         else Ok (Scan d' (sc_phase s) (sc_ready s) n, 0%Z)) /\ written (sc_db s) d' u K_RESERVED w n sync).
Proof.
  intros Hn Hs. unfold set_reserved. replace ((4 <? n) || (4 <? sc_reserved s))%N with false by lia. rewrite <- cap_reserved, <- (reserved_refused_iff _ _ Hn).
  destruct (has (phase_flags (sc_phase s)) CAP_RES); cbn [negb].
  - split; [congruence|]. split; [intros _ ->; rewrite N.eqb_refl; reflexivity|]. split; intros _ Ne M; rewrite (proj2 (N.eqb_neq _ _) Ne).
    + destruct (reserved_refused (sc_reserved s) n); congruence.
    + rewrite M. destruct (state_put (sc_db s) u w K_RESERVED n sync) as (d' & E & W). exists d'. rewrite E, reserved_is_key.
      split; [|exact W]. destruct (check_kv_wr_allowed _ w <? 0)%Z; reflexivity.
  - split; [reflexivity|]. repeat split; intros; congruence.
Qed.
Lemma may_set_ready_dec p : may_set_ready p \/ ~ may_set_ready p.
Proof. rewrite <- cap_ready. destruct (has _ _); [left; reflexivity|right; discriminate]. Qed.
Lemma may_set_reserved_dec p : may_set_reserved p \/ ~ may_set_reserved p.
Proof. rewrite <- cap_reserved. destruct (has _ _); [left; reflexivity|right; discriminate]. Qed.
Lemma ready_move_dec s n : (s <= 8)%N -> (n <= 8)%N -> ready_move s n \/ ~ ready_move s n.
Proof. intros H1 H2. rewrite <- (ready_refused_iff s n H1 H2). destruct (ready_refused s n); [right; discriminate|left; reflexivity]. Qed.
Lemma reserved_move_dec s n : (n <= 4)%N -> reserved_move s n \/ ~ reserved_move s n.
Proof. intros H2. rewrite <- (reserved_refused_iff s n H2). destruct (reserved_refused s n); [right; discriminate|left; reflexivity]. Qed.

(* A request that went through either left everything or made a permitted change *)
Lemma set_ready_cases s u w n sync s' r : set_ready s u w n sync = Ok (s', r) ->
  s' = s \/ (r = 0%Z /\ may_set_ready (sc_phase s) /\ ready_move (sc_ready s) n /\ sc_ready s' = n /\ sc_reserved s' = sc_reserved s /\ sc_phase s' = sc_phase s
             /\ (n <= 8)%N /\ written (sc_db s) (sc_db s') u K_READY w n sync).
Proof.
  intros E. assert (B : (n <= 8)%N /\ (sc_ready s <= 8)%N).
  { unfold set_ready in E. destruct ((8 <? n) || (8 <? sc_ready s))%N eqn:X; [discriminate|lia]. }
  destruct B as (Hn & Hs). destruct (set_ready_lemma s u w n sync Hn Hs) as (L1 & L2 & L3 & L4).
  destruct (may_set_ready_dec (sc_phase s)) as [P|P]; [|rewrite (L1 P) in E; left; congruence].
  destruct (N.eq_dec n (sc_ready s)) as [Q|Q]; [rewrite (L2 P Q) in E; left; congruence|].
  destruct (ready_move_dec (sc_ready s) n Hs Hn) as [M|M]; [|rewrite (L3 P Q M) in E; left; congruence].
  destruct (L4 P Q M) as (d' & E' & W). rewrite E' in E. destruct (_ <? 0)%Z; [discriminate|]. injection E as <- <-. right.
  cbn [sc_ready sc_reserved sc_phase sc_db]. auto 10.
Qed.
Lemma set_reserved_cases s u w n sync s' r : set_reserved s u w n sync = Ok (s', r) ->
  s' = s \/ (r = 0%Z /\ may_set_reserved (sc_phase s) /\ reserved_move (sc_reserved s) n /\ sc_ready s' = sc_ready s /\ sc_reserved s' = n /\ sc_phase s' = sc_phase s
             /\ (n <= 4)%N /\ written (sc_db s) (sc_db s') u K_RESERVED w n sync).
Proof.
  intros E. assert (B : (n <= 4)%N /\ (sc_reserved s <= 4)%N).
  { unfold set_reserved in E. destruct ((4 <? n) || (4 <? sc_reserved s))%N eqn:X; [discriminate|lia]. }
  destruct B as (Hn & Hs). destruct (set_reserved_lemma s u w n sync Hn Hs) as (L1 & L2 & L3 & L4).
  destruct (may_set_reserved_dec (sc_phase s)) as [P|P]; [|rewrite (L1 P) in E; left; congruence].
  destruct (N.eq_dec n (sc_reserved s)) as [Q|Q]; [rewrite (L2 P Q) in E; left; congruence|].
  destruct (reserved_move_dec (sc_reserved s) n Hn) as [M|M]; [|rewrite (L3 P Q M) in E; left; congruence].
  destruct (L4 P Q M) as (d' & E' & W). rewrite E' in E. destruct (_ <? 0)%Z; [discriminate|]. injection E as <- <-. right.
  cbn [sc_ready sc_reserved sc_phase sc_db]. auto 10.
Qed.
Lemma get_ready_cases s u w a s' n : get_ready s u w a = Ok (s', n) -> knows_ready s u ->
  sc_db s' = sc_db s /\ sc_ready s' = sc_ready s /\ sc_reserved s' = sc_reserved s /\ (a = 0 -> n = stored (sc_db s) (ready_key (dev_id u))).
Proof.
  unfold get_ready, knows_ready. rewrite ready_is_key. intros E K. destruct (a =? 0) eqn:Ea; cbn [negb] in E.
  - destruct (sc_ready s =? RDY_UNDEFINED)%N eqn:Z.
    + destruct (get_int (sc_db s) u w K_READY 0) as [v|] eqn:G; [|discriminate]. cbn [obind] in E.
      apply get_int_cases in G. injection E as <- <-. cbn [sc_db sc_ready sc_reserved]. destruct G as [-> | ->]; rewrite <- K; auto.
    + injection E as <- <-. auto.
  - destruct (get_int (sc_db s) u w K_READY a) as [v|]; [|discriminate]. cbn [obind] in E. injection E as <- <-.
    repeat split. intros ->. discriminate.
Qed.
Lemma get_reserved_cases s u w a s' n : get_reserved s u w a = Ok (s', n) -> knows_reserved s u ->
  sc_db s' = sc_db s /\ sc_ready s' = sc_ready s /\ sc_reserved s' = sc_reserved s /\ (a = 0 -> n = stored (sc_db s) (reserved_key (dev_id u))).
Proof.
  unfold get_reserved, knows_reserved. rewrite reserved_is_key. intros E K. destruct (a =? 0) eqn:Ea; cbn [negb] in E.
  - destruct (sc_reserved s =? RES_UNDEFINED)%N eqn:Z.
    + destruct (get_int (sc_db s) u w K_RESERVED 0) as [v|] eqn:G; [|discriminate]. cbn [obind] in E.
      apply get_int_cases in G. injection E as <- <-. cbn [sc_db sc_ready sc_reserved]. destruct G as [-> | ->]; rewrite <- K; auto.
    + injection E as <- <-. auto.
  - destruct (get_int (sc_db s) u w K_RESERVED a) as [v|]; [|discriminate]. cbn [obind] in E. injection E as <- <-.
    repeat split. intros ->. discriminate.
Qed.
Lemma get_ready_others s u w a s' n : get_ready s u w a = Ok (s', n) -> sc_db s' = sc_db s /\ sc_reserved s' = sc_reserved s.
Proof.
  unfold get_ready. destruct (negb (a =? 0)); [|destruct (_ =? _)%N];
    try (destruct (get_int _ _ _ _ _); [|discriminate]; cbn [obind]); intros E; injection E as <- <-; auto.
Qed.
Lemma get_reserved_others s u w a s' n : get_reserved s u w a = Ok (s', n) -> sc_db s' = sc_db s /\ sc_ready s' = sc_ready s.
Proof.
  unfold get_reserved. destruct (negb (a =? 0)); [|destruct (_ =? _)%N];
    try (destruct (get_int _ _ _ _ _); [|discriminate]; cbn [obind]); intros E; injection E as <- <-; auto.
Qed.

Lemma step_ready s u q s' r : knows_ready s u -> req_step s u q = Ok (s', r) ->
  knows_ready s' u /\
  (stored (sc_db s') (ready_key (dev_id u)) = stored (sc_db s) (ready_key (dev_id u))
   \/ exists w n, q = SetReady w n /\ r = 0%Z /\ stored (sc_db s') (ready_key (dev_id u)) = n
        /\ ready_move (stored (sc_db s) (ready_key (dev_id u))) n /\ may_set_ready (sc_phase s)).
Proof.
  intros K E.
  assert (Same : forall d p x, recs d (ready_key (dev_id u)) = recs (sc_db s) (ready_key (dev_id u)) -> sc_ready (Scan d p (sc_ready s) x) = stored d (ready_key (dev_id u))
     /\ stored d (ready_key (dev_id u)) = stored (sc_db s) (ready_key (dev_id u))).
  { intros d p x R. cbn [sc_ready]. rewrite (stored_same _ _ _ R). auto. }
  destruct q as [w n|w n|w a|w a|p|w n c v f|w n c f|w n c]; cbn [req_step] in E.
  - apply set_ready_cases in E as [-> | (-> & P & M & R & _ & _ & Hn & W)]; [auto|].
    rewrite ready_is_key in *. unfold knows_ready. rewrite ready_is_key, (stored_written _ _ _ _ _ _ _ (N.le_lt_trans _ _ 256 Hn eq_refl) W).
    split; [exact R|]. right. exists w, n. unfold knows_ready in K. rewrite ready_is_key in K. rewrite <- K. auto.
  - apply set_reserved_cases in E as [-> | (-> & P & M & R1 & R & _ & Hn & W)]; [auto|].
    rewrite ready_is_key in *. unfold knows_ready in *. rewrite ready_is_key in *.
    rewrite (stored_other _ _ _ _ _ _ _ _ W (keys_differ u)) by discriminate. rewrite R1. auto.
  - destruct (get_ready s u w a) as [(s1, n)|] eqn:G; [|discriminate]. cbn [obind] in E. injection E as <- _.
    destruct (get_ready_cases _ _ _ _ _ _ G K) as (D & R & _). unfold knows_ready. rewrite D, R. auto.
  - destruct (get_reserved s u w a) as [(s1, n)|] eqn:G; [|discriminate]. cbn [obind] in E. injection E as <- _.
    destruct (get_reserved_others _ _ _ _ _ _ G) as (D & R). unfold knows_ready. rewrite D, R. auto.
  - injection E as <- _. unfold knows_ready. cbn [sc_db sc_ready]. auto.
  - destruct (kv_set _ _ _ _ _ _ _) as [((d, z), st)|] eqn:G; [|discriminate]. cbn [obind] in E. injection E as <- _.
    apply (kv_set_apart _ _ _ _ _ _ _ _ _ _ u K_READY) in G. destruct (Same d (sc_phase s) (sc_reserved s) G) as (A & A'). split; [exact A|left; exact A'].
  - destruct (kv_reserve _ _ _ _ _ _ _) as [(d, z)|] eqn:G; [|discriminate]. cbn [obind] in E. injection E as <- _.
    apply (reserve_apart _ _ _ _ _ _ _ _ _ u K_READY) in G. destruct (Same d (sc_phase s) (sc_reserved s) G) as (A & A'). split; [exact A|left; exact A'].
  - destruct (kv_unreserve _ _ _ _ _ _) as [(d, z)|] eqn:G; [|discriminate]. cbn [obind] in E. injection E as <- _.
    apply (unreserve_apart _ _ _ _ _ _ _ _ u K_READY) in G. destruct (Same d (sc_phase s) (sc_reserved s) G) as (A & A'). split; [exact A|left; exact A'].
Qed.
Lemma step_reserved s u q s' r : knows_reserved s u -> req_step s u q = Ok (s', r) ->
  knows_reserved s' u /\
  (stored (sc_db s') (reserved_key (dev_id u)) = stored (sc_db s) (reserved_key (dev_id u))
   \/ exists w n, q = SetReserved w n /\ r = 0%Z /\ stored (sc_db s') (reserved_key (dev_id u)) = n
        /\ reserved_move (stored (sc_db s) (reserved_key (dev_id u))) n /\ may_set_reserved (sc_phase s)).
Proof.
  intros K E.
  assert (Same : forall d p x, recs d (reserved_key (dev_id u)) = recs (sc_db s) (reserved_key (dev_id u)) -> sc_reserved (Scan d p x (sc_reserved s)) = stored d (reserved_key (dev_id u))
     /\ stored d (reserved_key (dev_id u)) = stored (sc_db s) (reserved_key (dev_id u))).
  { intros d p x R. cbn [sc_reserved]. rewrite (stored_same _ _ _ R). auto. }
  destruct q as [w n|w n|w a|w a|p|w n c v f|w n c f|w n c]; cbn [req_step] in E.
  - apply set_ready_cases in E as [-> | (-> & P & M & _ & R1 & _ & Hn & W)]; [auto|].
    rewrite reserved_is_key in *. unfold knows_reserved in *. rewrite reserved_is_key in *.
    rewrite (stored_other _ _ _ _ _ _ _ _ W (fun e => keys_differ u (eq_sym e))) by discriminate. rewrite R1. auto.
  - apply set_reserved_cases in E as [-> | (-> & P & M & _ & R & _ & Hn & W)]; [auto|].
    rewrite reserved_is_key in *. unfold knows_reserved. rewrite reserved_is_key, (stored_written _ _ _ _ _ _ _ (N.le_lt_trans _ _ 256 Hn eq_refl) W).
    split; [exact R|]. right. exists w, n. unfold knows_reserved in K. rewrite reserved_is_key in K. rewrite <- K. auto.
  - destruct (get_ready s u w a) as [(s1, n)|] eqn:G; [|discriminate]. cbn [obind] in E. injection E as <- _.
    destruct (get_ready_others _ _ _ _ _ _ G) as (D & R). unfold knows_reserved. rewrite D, R. auto.
  - destruct (get_reserved s u w a) as [(s1, n)|] eqn:G; [|discriminate]. cbn [obind] in E. injection E as <- _.
    destruct (get_reserved_cases _ _ _ _ _ _ G K) as (D & _ & R & _). unfold knows_reserved. rewrite D, R. auto.
  - injection E as <- _. unfold knows_reserved. cbn [sc_db sc_reserved]. auto.
  - destruct (kv_set _ _ _ _ _ _ _) as [((d, z), st)|] eqn:G; [|discriminate]. cbn [obind] in E. injection E as <- _.
    apply (kv_set_apart _ _ _ _ _ _ _ _ _ _ u K_RESERVED) in G. destruct (Same d (sc_phase s) (sc_ready s) G) as (A & A'). split; [exact A|left; exact A'].
  - destruct (kv_reserve _ _ _ _ _ _ _) as [(d, z)|] eqn:G; [|discriminate]. cbn [obind] in E. injection E as <- _.
    apply (reserve_apart _ _ _ _ _ _ _ _ _ u K_RESERVED) in G. destruct (Same d (sc_phase s) (sc_ready s) G) as (A & A'). split; [exact A|left; exact A'].
  - destruct (kv_unreserve _ _ _ _ _ _) as [(d, z)|] eqn:G; [|discriminate]. cbn [obind] in E. injection E as <- _.
    apply (unreserve_apart _ _ _ _ _ _ _ _ u K_RESERVED) in G. destruct (Same d (sc_phase s) (sc_ready s) G) as (A & A'). split; [exact A|left; exact A'].
Qed.
Lemma steps_ready u l : forall s s', knows_ready s u -> req_steps s u l = Ok s' -> knows_ready s' u.
Proof.
  induction l as [|q l IH]; intros s s' K E; cbn [req_steps] in E; [congruence|].
  destruct (req_step s u q) as [(s1, r)|] eqn:Q; [|discriminate]. cbn [obind] in E. apply (IH s1 s'); [|exact E]. exact (proj1 (step_ready _ _ _ _ _ K Q)).
Qed.
Lemma steps_reserved u l : forall s s', knows_reserved s u -> req_steps s u l = Ok s' -> knows_reserved s' u.
Proof.
  induction l as [|q l IH]; intros s s' K E; cbn [req_steps] in E; [congruence|].
  destruct (req_step s u q) as [(s1, r)|] eqn:Q; [|discriminate]. cbn [obind] in E. apply (IH s1 s'); [|exact E]. exact (proj1 (step_reserved _ _ _ _ _ K Q)).
Qed.
Lemma ready_cycle u s l s1 q s2 r : knows_ready s u -> req_steps s u l = Ok s1 -> req_step s1 u q = Ok (s2, r) ->
  stored (sc_db s2) (ready_key (dev_id u)) = stored (sc_db s1) (ready_key (dev_id u))
   \/ exists w n, q = SetReady w n /\ r = 0%Z /\ stored (sc_db s2) (ready_key (dev_id u)) = n
        /\ ready_move (stored (sc_db s1) (ready_key (dev_id u))) n /\ may_set_ready (sc_phase s1).
Proof. intros K E Q. exact (proj2 (step_ready _ _ _ _ _ (steps_ready u l s s1 K E) Q)). Qed.
Lemma reserved_cycle u s l s1 q s2 r : knows_reserved s u -> req_steps s u l = Ok s1 -> req_step s1 u q = Ok (s2, r) ->
  stored (sc_db s2) (reserved_key (dev_id u)) = stored (sc_db s1) (reserved_key (dev_id u))
   \/ exists w n, q = SetReserved w n /\ r = 0%Z /\ stored (sc_db s2) (reserved_key (dev_id u)) = n
        /\ reserved_move (stored (sc_db s1) (reserved_key (dev_id u))) n /\ may_set_reserved (sc_phase s1).
Proof. intros K E Q. exact (proj2 (step_reserved _ _ _ _ _ (steps_reserved u l s s1 K E) Q)). Qed.

(* C63 *)
Lemma loop_prefix exec ex pend k : forall fuel a done, (forall i, i < k -> passed (exec (done ++ seq a i) (a + i))) -> a + k <= S pend ->
  scan_loop (k + fuel) exec ex a pend done = scan_loop fuel exec ex (a + k) pend (done ++ seq a k).
Proof.
  induction k as [|k IH]; intros fuel a done H L; cbn [seq Nat.add].
  - rewrite Nat.add_0_r, app_nil_r. reflexivity.
  - cbn [scan_loop]. replace (a <=? pend) with true by lia.
    assert (P := H 0 ltac:(lia)). cbn [seq] in P. rewrite app_nil_r, Nat.add_0_r in P. rewrite (proj1 (passed_dec _) P).
    rewrite IH; [|intros i Hi|lia].
    + rewrite <- app_assoc. cbn [app]. f_equal. lia.
    + specialize (H (S i) ltac:(lia)). cbn [seq] in H. rewrite <- app_assoc. cbn [app]. replace (S a + i) with (a + S i) by lia. exact H.
Qed.
Lemma seq_cut a k i : i < k -> seq a k = seq a i ++ (a + i) :: seq (S (a + i)) (k - S i).
Proof. intros H. replace k with (i + S (k - S i)) at 1 by lia. rewrite seq_app. reflexivity. Qed.
Lemma seq_split_inv a k pre p post : seq a k = pre ++ p :: post -> length pre < k /\ pre = seq a (length pre) /\ p = a + length pre /\ post = seq (S p) (k - S (length pre)).
Proof.
  intros E. assert (L : length pre < k) by (apply (f_equal (@length _)) in E; rewrite seq_length, app_length in E; cbn [length] in E; lia).
  rewrite (seq_cut a k _ L) in E. apply app_eq_app in E as (l & [(E1 & E2)|(E1 & E2)]).
  - assert (l = []) as ->. { apply (f_equal (@length _)) in E1. rewrite seq_length, app_length in E1. destruct l; [reflexivity|cbn [length] in E1; lia]. }
    rewrite app_nil_r in E1. cbn [app] in E2. injection E2 as -> ->. auto.
  - assert (l = []) as ->. { apply (f_equal (@length _)) in E1. rewrite app_length, seq_length in E1. destruct l; [reflexivity|cbn [length] in E1; lia]. }
    rewrite app_nil_r in E1. cbn [app] in E2. injection E2 as <- <-. auto.
Qed.
Lemma stage_run exec a k : 0 < k -> (forall p, a <= p < a + k -> (init_or_exit p = true <-> p = a \/ p = a + k - 1)) -> k < 15 ->
  ran exec (seq a k) (scan_loop 16 exec (a + k - 1) a (a + k - 1) []).
Proof.
  intros K IE K15. split.
  - intros H. replace 16 with (k + S (15 - k)) by lia. rewrite loop_prefix; [|intros i Hi|lia].
    + cbn [app scan_loop]. replace (a + k <=? a + k - 1) with false by lia. reflexivity.
    + cbn [app]. apply (H _ _ (seq (S (a + i)) (k - S i))). apply seq_cut, Hi.
  - intros pre p post E H F. apply seq_split_inv in E as (L & Ep & Ea & Eq).
    set (j := length pre) in *. clearbody j.
    assert (R : scan_loop 16 exec (a + k - 1) a (a + k - 1) [] =
       if init_or_exit p then Some (pre ++ [p], (-1)%Z) else scan_loop (15 - j) exec (a + k - 1) (S (a + k - 1)) (a + k - 1) ((pre ++ [p]) ++ [PHASE_ERROR; a + k - 1])).
    { replace 16 with (j + S (15 - j)) by lia. rewrite loop_prefix; [|intros i Hi|lia].
      - cbn [scan_loop app]. replace (a + j <=? a + k - 1) with true by lia. rewrite <- Ep, <- Ea.
        destruct ((exec pre p =? 0)%Z || (exec pre p =? 1)%Z) eqn:X; [destruct F; apply passed_dec, X|reflexivity].
      - cbn [app]. apply (H _ _ (seq (S (a + i)) (j - S i))). rewrite Ep. apply seq_cut, Hi. }
    rewrite R. assert (Rg : a <= p < a + k) by lia. specialize (IE p Rg).
    assert (La : last (seq a k) 0 = a + k - 1).
    { rewrite (seq_cut a k (k - 1)) by lia. replace (k - S (k - 1)) with 0 by lia. cbn [seq]. rewrite last_last. lia. }
    rewrite La. split.
    + intros C. replace (init_or_exit p) with true; [reflexivity|]. symmetry. apply IE. destruct C as [C|C].
      * left. rewrite Ep in C. destruct j; [lia|discriminate].
      * right. rewrite Eq in C. destruct (k - S j) eqn:Z; [lia|discriminate].
    + intros C1 C2. replace (init_or_exit p) with false.
      * destruct (15 - j) eqn:Z; [lia|]. cbn [scan_loop]. replace (S (a + k - 1) <=? a + k - 1) with false by lia. rewrite <- app_assoc. reflexivity.
      * symmetry. destruct (init_or_exit p); [|reflexivity]. destruct (proj1 IE eq_refl) as [X|X].
        -- destruct C1. rewrite Ep. replace j with 0 by lia. reflexivity.
        -- destruct C2. rewrite Eq. replace (k - S j) with 0 by lia. reflexivity.
Qed.
Lemma scan_lemma exec stage remove : stage = 1 \/ stage = 2 -> ran exec (stage_phases stage remove) (cmd_exec_scan exec stage remove).
Proof.
  assert (IE : forall a k, forallb (fun p => Bool.eqb (init_or_exit p) ((p =? a) || (p =? a + k - 1))) (seq a k) = true ->
     forall p, a <= p < a + k -> (init_or_exit p = true <-> p = a \/ p = a + k - 1)).
  { intros a k H p Hp. rewrite forallb_forall in H. specialize (H p (proj2 (in_seq k a p) Hp)). apply Bool.eqb_prop in H. lia. }
  intros [-> | ->]; [destruct remove|].
  - apply (stage_run exec 7 3); [lia|apply IE; reflexivity|lia].
  - apply (stage_run exec 0 7); [lia|apply IE; reflexivity|lia].
  - assert (H : ran exec (seq 10 4) (scan_loop 16 exec B_EXIT B_INIT B_EXIT [])) by (apply (stage_run exec 10 4); [lia|apply IE; reflexivity|lia]).
    destruct remove; exact H.
Qed.
Lemma scan_bad_stage exec stage remove : stage <> 1 -> stage <> 2 -> cmd_exec_scan exec stage remove = Some ([], (-1)%Z).
Proof. intros H1 H2. destruct stage as [|[|[|n]]]; [reflexivity|congruence|congruence|reflexivity]. Qed.

(* The statements of the properties *)
Lemma check_write o w : no_nul (r_owner o) -> no_nul w -> (may_write o w -> (check_kv_wr_allowed (Some o) w <? 0)%Z = false) /\ (~ may_write o w -> (check_kv_wr_allowed (Some o) w <? 0)%Z = true).
Proof.
  intros Ho Hw. destruct (wr_lemma o w Ho Hw) as (L1 & L2). split; intros M; [rewrite (L1 M); reflexivity|]. rewrite (L2 M).
  destruct (not_write_read o w Ho Hw M) as (b & Eb & _). rewrite Eb. destruct (N.testbit (r_flags o) 4); [reflexivity|].
  destruct (N.testbit (r_flags o) b); reflexivity.
Qed.
Lemma state_bits b : In b [1; 3; 5; 6; 7; 9; 10]%N <-> N.testbit (state_flags false) b = true.
Proof.
  split.
  - intros H. cbn [In] in H. repeat (destruct H as [<-|H]; [reflexivity|]). contradiction.
  - intros H. assert (L : (b < 11)%N).
    { destruct (N.lt_ge_cases b 11) as [L|L]; [exact L|]. rewrite (N.bits_above_log2 (state_flags false) b) in H; [discriminate|].
      change (N.log2 (state_flags false)) with 10%N. lia. }
    assert (A : In b [0;1;2;3;4;5;6;7;8;9;10]%N) by (cbn [In]; lia). cbn [In] in A |- *.
    repeat (destruct A as [<-|A]; [vm_compute in H; try discriminate H; tauto|]). contradiction.
Qed.
Lemma written_changed d d' u c w n : (n < 256)%N -> written d d' u c w n false -> changed (state_key u c) w n d d'.
Proof.
  intros Hn W. split; [exact (stored_written _ _ _ _ _ _ _ Hn W)|]. destruct W as (W1 & W2 & W3). split; [intros o Ho; rewrite W2, Ho; reflexivity|].
  split; [exact W3|]. eexists. split; [exact W1|]. split; [reflexivity|]. split; [exact state_bits|]. cbn [r_data state_rec List.concat]. rewrite app_nil_r. apply le_length.
Qed.
Lemma ready_request_lemma s u w n : (n <= 8)%N -> (sc_ready s <= 8)%N -> no_nul w ->
  let k := ready_key (dev_id u) in
  (~ may_set_ready (sc_phase s) -> set_ready s u w n false = Ok (s, (- EPERM)%Z))
  /\ (may_set_ready (sc_phase s) -> n = sc_ready s -> set_ready s u w n false = Ok (s, 0%Z))
  /\ (may_set_ready (sc_phase s) -> n <> sc_ready s -> ~ ready_move (sc_ready s) n -> set_ready s u w n false = Ok (s, (- EBADRQC)%Z))
  /\ (may_set_ready (sc_phase s) -> n <> sc_ready s -> ready_move (sc_ready s) n -> (forall o, recs (sc_db s) k = Some o -> no_nul (r_owner o) /\ may_write o w) ->
      exists d', set_ready s u w n false = Ok (Scan d' (sc_phase s) n (sc_reserved s), 0%Z) /\ changed k w n (sc_db s) d')
  /\ (may_set_ready (sc_phase s) -> n <> sc_ready s -> ready_move (sc_ready s) n -> (exists o, recs (sc_db s) k = Some o /\ no_nul (r_owner o) /\ ~ may_write o w) ->
      set_ready s u w n false = UB).
Proof.
  intros Hn Hs Hw k. destruct (set_ready_lemma s u w n false Hn Hs) as (L1 & L2 & L3 & L4). split; [exact L1|]. split; [exact L2|]. split; [exact L3|]. split.
  - intros P Q M Ho. destruct (L4 P Q M) as (d' & E & W). exists d'. split; [|apply written_changed; [lia|exact W]]. rewrite E. fold k.
    destruct (recs (sc_db s) k) as [o|]; [|reflexivity]. destruct (Ho o eq_refl) as (No & Mo). rewrite (proj1 (check_write o w No Hw) Mo). reflexivity.
  - intros P Q M (o & Eo & No & Mo). destruct (L4 P Q M) as (d' & E & W). rewrite E. fold k. rewrite Eo, (proj2 (check_write o w No Hw) Mo). reflexivity.
Qed.
Lemma reserved_request_lemma s u w n : (n <= 4)%N -> (sc_reserved s <= 4)%N -> no_nul w ->
  let k := reserved_key (dev_id u) in
  (~ may_set_reserved (sc_phase s) -> set_reserved s u w n false = Ok (s, (- EPERM)%Z))
  /\ (may_set_reserved (sc_phase s) -> n = sc_reserved s -> set_reserved s u w n false = Ok (s, 0%Z))
  /\ (may_set_reserved (sc_phase s) -> n <> sc_reserved s -> ~ reserved_move (sc_reserved s) n -> set_reserved s u w n false = Ok (s, (- EBADRQC)%Z))
  /\ (may_set_reserved (sc_phase s) -> n <> sc_reserved s -> reserved_move (sc_reserved s) n -> (forall o, recs (sc_db s) k = Some o -> no_nul (r_owner o) /\ may_write o w) ->
      exists d', set_reserved s u w n false = Ok (Scan d' (sc_phase s) (sc_ready s) n, 0%Z) /\ changed k w n (sc_db s) d')
  /\ (may_set_reserved (sc_phase s) -> n <> sc_reserved s -> reserved_move (sc_reserved s) n -> (exists o, recs (sc_db s) k = Some o /\ no_nul (r_owner o) /\ ~ may_write o w) ->
      set_reserved s u w n false = UB).
Proof.
  intros Hn Hs Hw k. destruct (set_reserved_lemma s u w n false Hn Hs) as (L1 & L2 & L3 & L4). split; [exact L1|]. split; [exact L2|]. split; [exact L3|]. split.
  - intros P Q M Ho. destruct (L4 P Q M) as (d' & E & W). exists d'. split; [|apply written_changed; [lia|exact W]]. rewrite E. fold k.
    destruct (recs (sc_db s) k) as [o|]; [|reflexivity]. destruct (Ho o eq_refl) as (No & Mo). rewrite (proj1 (check_write o w No Hw) Mo). reflexivity.
  - intros P Q M (o & Eo & No & Mo). destruct (L4 P Q M) as (d' & E & W). rewrite E. fold k. rewrite Eo, (proj2 (check_write o w No Hw) Mo). reflexivity.
Qed.
Lemma readable_flags o : flag o 5 -> flag o 6 -> flag o 7 -> N.land (r_flags o) FL_RD = FL_RD.
Proof.
  unfold flag. intros H5 H6 H7. apply N.bits_inj. intros b. rewrite N.land_spec.
  destruct (N.testbit FL_RD b) eqn:T; [|apply andb_false_r]. rewrite andb_true_r.
  destruct (N.lt_ge_cases b 8) as [L|L].
  - assert (A : In b [0;1;2;3;4;5;6;7]%N) by (cbn [In]; lia). cbn [In] in A.
    repeat (destruct A as [<-|A]; [vm_compute in T; (discriminate T || assumption)|]). contradiction.
  - rewrite (N.bits_above_log2 FL_RD b) in T; [discriminate|]. change (N.log2 FL_RD) with 7%N. lia.
Qed.
Lemma state_get d u c w a : (forall o, recs d ((if a =? 1 then B "~" else []) ++ state_key u c) = Some o -> state_record o) ->
  get_int d u w c a = Ok (match recs d ((if a =? 1 then B "~" else []) ++ state_key u c) with Some _ => Some (stored d ((if a =? 1 then B "~" else []) ++ state_key u c)) | None => None end).
Proof.
  intros H. destruct (recs d _) as [o|] eqn:E.
  - destruct (H o eq_refl) as (F5 & F6 & F7 & x & D & L). rewrite (get_int_open d u w c o x [] a E (readable_flags o F5 F6 F7) D ltac:(lia)).
    unfold stored. rewrite E, D. reflexivity.
  - unfold get_int, cmd_get_key_value. rewrite get_key, E. reflexivity.
Qed.
Lemma state_loaded_lemma s u w :
  let k := ready_key (dev_id u) in
  (sc_ready s = 0%N \/ knows_ready s u) -> (forall o, recs (sc_db s) k = Some o -> state_record o) ->
  exists s', get_ready s u w 0 = Ok (s', stored (sc_db s) k) /\ knows_ready s' u /\ sc_db s' = sc_db s /\ sc_phase s' = sc_phase s /\ sc_reserved s' = sc_reserved s.
Proof.
  intros k H R. unfold get_ready. cbn [Nat.eqb negb]. destruct (sc_ready s =? RDY_UNDEFINED)%N eqn:Z.
  - apply N.eqb_eq in Z. rewrite (state_get (sc_db s) u K_READY w 0 R). cbn [Nat.eqb app obind]. change (state_key u K_READY) with k.
    unfold stored. destruct (recs (sc_db s) k) as [o|] eqn:E.
    + eexists. split; [reflexivity|]. unfold knows_ready. cbn [sc_db sc_ready sc_phase sc_reserved]. fold k. unfold stored. rewrite E. auto.
    + rewrite Z. eexists. split; [reflexivity|]. unfold knows_ready. cbn [sc_db sc_ready sc_phase sc_reserved]. fold k. unfold stored. rewrite E. auto.
  - destruct H as [H|H]; [rewrite H in Z; discriminate|]. exists s. unfold knows_ready in *. fold k in H |- *. rewrite <- H. auto.
Qed.
Lemma reserved_loaded_lemma s u w :
  let k := reserved_key (dev_id u) in
  (sc_reserved s = 0%N \/ knows_reserved s u) -> (forall o, recs (sc_db s) k = Some o -> state_record o) ->
  exists s', get_reserved s u w 0 = Ok (s', stored (sc_db s) k) /\ knows_reserved s' u /\ sc_db s' = sc_db s /\ sc_phase s' = sc_phase s /\ sc_ready s' = sc_ready s.
Proof.
  intros k H R. unfold get_reserved. cbn [Nat.eqb negb]. destruct (sc_reserved s =? RES_UNDEFINED)%N eqn:Z.
  - apply N.eqb_eq in Z. rewrite (state_get (sc_db s) u K_RESERVED w 0 R). cbn [Nat.eqb app obind]. change (state_key u K_RESERVED) with k.
    unfold stored. destruct (recs (sc_db s) k) as [o|] eqn:E.
    + eexists. split; [reflexivity|]. unfold knows_reserved. cbn [sc_db sc_ready sc_phase sc_reserved]. fold k. unfold stored. rewrite E. auto.
    + rewrite Z. eexists. split; [reflexivity|]. unfold knows_reserved. cbn [sc_db sc_ready sc_phase sc_reserved]. fold k. unfold stored. rewrite E. auto.
  - destruct H as [H|H]; [rewrite H in Z; discriminate|]. exists s. unfold knows_reserved in *. fold k in H |- *. rewrite <- H. auto.
Qed.
Lemma previous_ready_lemma s u w : (forall o, recs (sc_db s) ("~"%char :: ready_key (dev_id u)) = Some o -> state_record o) ->
  get_ready s u w 1 = Ok (s, stored (sc_db s) ("~"%char :: ready_key (dev_id u))).
Proof.
  intros R. unfold get_ready. cbn [Nat.eqb negb]. rewrite (state_get (sc_db s) u K_READY w 1 R). cbn [Nat.eqb app obind B].
  change (state_key u K_READY) with (ready_key (dev_id u)). unfold stored. destruct (recs (sc_db s) _); reflexivity.
Qed.
Lemma previous_reserved_lemma s u w : (forall o, recs (sc_db s) ("~"%char :: reserved_key (dev_id u)) = Some o -> state_record o) ->
  get_reserved s u w 1 = Ok (s, stored (sc_db s) ("~"%char :: reserved_key (dev_id u))).
Proof.
  intros R. unfold get_reserved. cbn [Nat.eqb negb]. rewrite (state_get (sc_db s) u K_RESERVED w 1 R). cbn [Nat.eqb app obind B].
  change (state_key u K_RESERVED) with (reserved_key (dev_id u)). unfold stored. destruct (recs (sc_db s) _); reflexivity.
Qed.
Lemma ready_reset_lemma d u w p res n : may_set_ready p -> no_nul w -> stored d (ready_key (dev_id u)) = n ->
  (forall o, recs d (ready_key (dev_id u)) = Some o -> no_nul (r_owner o) /\ may_write o w) ->
  exists d', set_ready (Scan d p RDY_UNDEFINED res) u w RDY_UNPROCESSED false = Ok (Scan d' p RDY_UNPROCESSED res, 0%Z)
    /\ stored d' (ready_key (dev_id u)) = RDY_UNPROCESSED.
Proof.
  intros P Hw _ Ho. destruct (ready_request_lemma (Scan d p RDY_UNDEFINED res) u w RDY_UNPROCESSED) as (_ & _ & _ & L & _); [discriminate..|exact Hw|].
  destruct (L P) as (d' & E & C & _); [discriminate|cbn [sc_ready]; unfold ready_move; repeat split; discriminate || reflexivity|exact Ho|]. eauto.
Qed.
Lemma reserved_reset_lemma d u w p rdy n : may_set_reserved p -> no_nul w -> stored d (reserved_key (dev_id u)) = n ->
  (forall o, recs d (reserved_key (dev_id u)) = Some o -> no_nul (r_owner o) /\ may_write o w) ->
  exists d', set_reserved (Scan d p rdy RES_UNDEFINED) u w RES_UNPROCESSED false = Ok (Scan d' p rdy RES_UNPROCESSED, 0%Z)
    /\ stored d' (reserved_key (dev_id u)) = RES_UNPROCESSED.
Proof.
  intros P Hw _ Ho. destruct (reserved_request_lemma (Scan d p rdy RES_UNDEFINED) u w RES_UNPROCESSED) as (_ & _ & _ & L & _); [discriminate..|exact Hw|].
  destruct (L P) as (d' & E & C & _); [discriminate|cbn [sc_ready]; unfold reserved_move; repeat split; discriminate || reflexivity|exact Ho|]. eauto.
Qed.
