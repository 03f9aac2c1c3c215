From Verif Require Import Base Tok_Model UbrKey_Model UbrKey_Spec UbrKey_Proofs UbrDb_Model UbrRec_Model UbrRec_Proofs UbrPerm_Spec UbrPerm_Proofs Lvm_Model Lvm_Spec Lvm_Proofs Blkid_Model Blkid_Spec Blkid_Steps.
Local Open Scope nat_scope.

Lemma list_lemma l t u : forall fs d, Forall (good_value l t) fs -> may_set d u -> exists d', add_properties l d u fs = Ok d' /\ may_set d' u
  /\ (forall s h k, In (s, h, k) variables -> recs d' (udev_var (number u) (B k)) =
        match last_named (B s) fs with Some v => Some (blk_record u 230 (text t h v ++ [NUL])) | None => recs d (udev_var (number u) (B k)) end)
  /\ (forall rest, partition_name rest -> recs d' (udev_var (number u) (B "ID_PART_ENTRY_" ++ rest)) =
        match last_named (B "PART_ENTRY_" ++ rest) fs with Some v => Some (blk_record u 230 (v ++ [NUL])) | None => recs d (udev_var (number u) (B "ID_PART_ENTRY_" ++ rest)) end)
  /\ (forall v m, last_named (B "TYPE") fs = Some v -> handles m v -> recs d' (next_key u) = Some (blk_record u 230 (m ++ [NUL])))
  /\ ((forall v junk, In (Some (B "TYPE", v, junk)) fs -> unknown v) -> recs d' (next_key u) = recs d (next_key u))
  /\ (forall x, x <> next_key u -> (forall k, blkid_variable k -> x <> udev_var (number u) k) -> recs d' x = recs d x).
Proof.
  induction fs as [|f fs IH]; intros d G M.
  - exists d. cbn [add_properties last_named]. split; [reflexivity|]. split; [exact M|]. split; [reflexivity|]. split; [reflexivity|]. split; [discriminate|]. split; reflexivity.
  - pose proof (Forall_inv G) as Gf. apply Forall_inv_tail in G. destruct f as [((name & value) & junk)|].
    + cbn [add_properties last_named]. destruct (add_lemma l t d u name value junk Gf M) as (d1 & E & S & M1). rewrite E. cbn [obind].
      destruct (IH d1 G M1) as (d' & E' & M' & H1 & H2 & H3 & H4 & H5). exists d'. split; [exact E'|]. split; [exact M'|].
      split; [|split; [|split; [|split]]].
      * intros s h k V. rewrite (H1 s h k V). destruct (last_named (B s) fs) as [v|]; [reflexivity|]. rewrite (step_var l t u name value junk d d1 s h k S V). destruct (list_eq_dec ascii_dec name (B s)); reflexivity.
      * intros rest P. rewrite (H2 rest P). destruct (last_named (B "PART_ENTRY_" ++ rest) fs) as [v|]; [reflexivity|]. rewrite (step_part l t u name value junk d d1 rest S P). destruct (list_eq_dec ascii_dec name _); reflexivity.
      * intros v m L Hm. destruct (last_named (B "TYPE") fs) as [w|] eqn:El; [injection L as ->; exact (H3 v m eq_refl Hm)|].
        assert (X : recs d' (next_key u) = recs d1 (next_key u)).
        { apply H4. intros w j I. exfalso. clear - El I. induction fs as [|f fs IH]; [destruct I|]. cbn [last_named] in El. destruct (last_named (B "TYPE") fs); [discriminate|]. destruct I as [->|I]; [|exact (IH eq_refl I)].
          destruct (list_eq_dec ascii_dec (B "TYPE") (B "TYPE")); [discriminate|contradiction]. }
        rewrite X, (step_next l t u name value junk d d1 S). destruct (list_eq_dec ascii_dec name (B "TYPE")); [|discriminate]. injection L as ->. apply type_table_name in Hm. rewrite Hm. reflexivity.
      * intros U. rewrite H4; [|intros w j I; apply (U w j); right; exact I]. rewrite (step_next l t u name value junk d d1 S). destruct (list_eq_dec ascii_dec name (B "TYPE")) as [->|]; [|reflexivity].
        destruct (type_lookup value) as [m|] eqn:Et; [|reflexivity]. apply type_table_name in Et. elim (U value junk (or_introl eq_refl) m Et).
      * intros x N1 N2. rewrite (H5 x N1 N2). exact (step_other l t u name value junk d d1 x S N1 N2).
    + cbn [add_properties last_named]. destruct (IH d G M) as (d' & E' & M' & H1 & H2 & H3 & H4 & H5). exists d'. split; [exact E'|]. split; [exact M'|]. split; [|split; [|split; [|split]]].
      * intros s h k V. rewrite (H1 s h k V). destruct (last_named (B s) fs); reflexivity.
      * intros rest P. rewrite (H2 rest P). destruct (last_named (B "PART_ENTRY_" ++ rest) fs); reflexivity.
      * intros v m L. apply H3. destruct (last_named (B "TYPE") fs); exact L.
      * intros U. apply H4. intros v j I. apply (U v j). right. exact I.
      * exact H5.
Qed.
Lemma probed l d u p opened fs : (0 <= opened)%Z -> (exists r, (0 <= r)%Z /\ probe_superblocks p = (r, fs)) -> blkid_scan_next l d u opened p = let! d := add_properties l d u fs in Ok (d, 0%Z).
Proof. intros H (r & Hr & E). unfold blkid_scan_next. replace (opened <? 0)%Z with false by lia. rewrite E. replace (r <? 0)%Z with false by lia. reflexivity. Qed.
Lemma scan_lemma l t d u opened p fs r : (0 <= opened)%Z -> (0 <= r)%Z -> probe_superblocks p = (r, fs) -> Forall (good_value l t) fs -> may_set d u -> exists d', blkid_scan_next l d u opened p = Ok (d', 0%Z)
  /\ (forall s h k, In (s, h, k) variables -> recs d' (udev_var (number u) (B k)) =
        match last_named (B s) fs with Some v => Some (blk_record u 230 (text t h v ++ [NUL])) | None => recs d (udev_var (number u) (B k)) end)
  /\ (forall rest, partition_name rest -> recs d' (udev_var (number u) (B "ID_PART_ENTRY_" ++ rest)) =
        match last_named (B "PART_ENTRY_" ++ rest) fs with Some v => Some (blk_record u 230 (v ++ [NUL])) | None => recs d (udev_var (number u) (B "ID_PART_ENTRY_" ++ rest)) end)
  /\ (forall x, x <> next_key u -> (forall k, blkid_variable k -> x <> udev_var (number u) k) -> recs d' x = recs d x).
Proof.
  intros Ho Hr E G M. rewrite (probed l d u p opened fs Ho (ex_intro _ r (conj Hr E))). destruct (list_lemma l t u fs d G M) as (d' & -> & _ & H1 & H2 & _ & _ & H5). exists d'. auto.
Qed.
Lemma core_reads d u r m : recs d (next_key u) = Some r -> no_nul (r_owner r) -> r_data r = [m ++ [NUL]] -> no_nul m -> next_mod d u = Ok (Some m).
Proof.
  intros H N D Nm. unfold next_mod, str_get. assert (G : good_name NS_DEVICE K_NEXT) by (split; [discriminate|split; discriminate]).
  destruct (get_lemma d u OWNER_CORE NS_DEVICE K_NEXT G) as (_ & X); [cbv; intuition discriminate|]. destruct (X r) as (_ & Y & _); [exact H|exact N|]. rewrite Y.
  - rewrite D. cbn [fst]. rewrite string_ok by exact Nm. reflexivity.
  - apply may_read_match; [exact N|cbv; intuition discriminate|]. replace (mod_match (r_owner r) OWNER_CORE) with MOD_CORE_MATCH by (symmetry; apply core_lemma; reflexivity). exact I.
  - rewrite D. discriminate.
Qed.
Lemma core_same d d' u : recs d' (next_key u) = recs d (next_key u) -> next_mod d' u = next_mod d u.
Proof.
  intros E. unfold next_mod, str_get, kv_get. destruct (_ || _); [reflexivity|]. unfold cmd_get_key_value. rewrite own_key by (split; [discriminate|split; discriminate]).
  change (record_key u OWNER_CORE NS_DEVICE K_NEXT) with (next_key u). rewrite E. reflexivity.
Qed.
Lemma handles_end m t : handles m t -> no_nul m.
Proof. intros H. apply type_table_name in H. exact (types_end _ _ H). Qed.
Lemma next_lemma l t d u opened p fs r v m : (0 <= opened)%Z -> (0 <= r)%Z -> probe_superblocks p = (r, fs) -> Forall (good_value l t) fs -> may_set d u -> last_named (B "TYPE") fs = Some v -> handles m v ->
  exists d', blkid_scan_next l d u opened p = Ok (d', 0%Z) /\ next_mod d' u = Ok (Some m).
Proof.
  intros Ho Hr E G M L H. rewrite (probed l d u p opened fs Ho (ex_intro _ r (conj Hr E))). destruct (list_lemma l t u fs d G M) as (d' & -> & _ & _ & _ & H3 & _). exists d'. split; [reflexivity|].
  exact (core_reads d' u _ m (H3 v m L H) ltac:(cbv; intuition discriminate) eq_refl (handles_end m v H)).
Qed.
Lemma stale_lemma l t d u opened p fs r : (0 <= opened)%Z -> (0 <= r)%Z -> probe_superblocks p = (r, fs) -> Forall (good_value l t) fs -> may_set d u -> (forall v junk, In (Some (B "TYPE", v, junk)) fs -> unknown v) ->
  exists d', blkid_scan_next l d u opened p = Ok (d', 0%Z) /\ next_mod d' u = next_mod d u.
Proof.
  intros Ho Hr E G M U. rewrite (probed l d u p opened fs Ho (ex_intro _ r (conj Hr E))). destruct (list_lemma l t u fs d G M) as (d' & -> & _ & _ & _ & _ & H4 & _). exists d'. split; [reflexivity|]. exact (core_same d d' u (H4 U)).
Qed.
Lemma failed_scan l d u opened p : (opened < 0)%Z \/ (fst (probe_superblocks p) < 0)%Z -> exists r, (r < 0)%Z /\ blkid_scan_next l d u opened p = Ok (d, r).
Proof.
  unfold blkid_scan_next. intros H. destruct (Z.ltb_spec opened 0) as [L|L]; [exists opened; split; [exact L|reflexivity]|]. destruct (probe_superblocks p) as (r & fs). cbn [fst] in H. destruct H as [H|H]; [lia|]. exists r. split; [exact H|]. replace (r <? 0)%Z with true by lia. reflexivity.
Qed.
(* the encoded UUID *)
Lemma uuid_lemma l t d u v junk : good_value l t (Some (B "UUID", v, junk)) -> may_set d u ->
  exists d', add_property l d u (B "UUID") v junk = Ok d' /\ recs d' (udev_var (number u) (B "ID_FS_UUID")) = Some (blk_record u 230 (v ++ [NUL]))
    /\ recs d' (udev_var (number u) (B "ID_FS_UUID_ENC")) = Some (blk_record u 6 (firstn 224 (l_encode l v (l_safe l v (NUL :: tl junk))))).
Proof.
  intros G M. destruct (add_lemma l t d u (B "UUID") v junk G M) as (d' & E & S & _). exists d'. split; [exact E|]. split.
  - rewrite (step_var l t u (B "UUID") v junk d d' "UUID" Plain "ID_FS_UUID" S); [|cbn; auto 6]. destruct (list_eq_dec ascii_dec (B "UUID") (B "UUID")); [reflexivity|contradiction].
  - rewrite (step_uuid l t u (B "UUID") v junk d d' S). destruct (list_eq_dec ascii_dec (B "UUID") (B "UUID")); [reflexivity|contradiction].
Qed.
Lemma read_denied d u w c r : recs d (udev_var (number u) c) = Some r -> good_name NS_UDEV c -> r_owner r = MOD_BLKID -> (r_flags r = 6)%N -> no_nul w -> w <> MOD_BLKID -> w <> B "/" -> kv_get d u w NS_UDEV c 0 None None = (None, (- EPERM)%Z).
Proof.
  intros H G O F N N1 N2. destruct (get_lemma d u w NS_UDEV c G N) as (_ & X). assert (No : no_nul (r_owner r)) by (rewrite O; exact blkid_nul).
  destruct (X r) as (Y & _ & _); [exact H|exact No|]. apply Y. intros R. apply may_read_match in R; [|exact No|exact N]. rewrite O in R.
  assert (M1 : mod_match MOD_BLKID w <> MOD_MATCH) by (intros Z; apply same_lemma in Z; [|exact blkid_nul|exact N]; destruct Z; congruence).
  assert (M2 : mod_match MOD_BLKID w <> MOD_CORE_MATCH) by (intros Z; apply core_lemma in Z; congruence).
  unfold granted, flag in R. rewrite F in R. destruct (mod_match MOD_BLKID w); try congruence; cbv in R; discriminate R.
Qed.
Lemma read_allowed d u w c x : recs d (udev_var (number u) c) = Some (blk_record u 230 x) -> good_name NS_UDEV c -> no_nul w -> kv_get d u w NS_UDEV c 0 None None = (Some ([x], 230%N), 0%Z).
Proof.
  intros H G N. destruct (get_lemma d u w NS_UDEV c G N) as (_ & X). destruct (X _ H) as (_ & Y & _); [exact blkid_nul|]. apply Y; [|discriminate]. apply may_read_match; [exact blkid_nul|exact N|].
  unfold granted, flag. cbn [r_flags blk_record]. destruct (mod_match _ w); cbn [read_bit]; reflexivity || exact I.
Qed.
Lemma uuid_unread l t d u v junk : good_value l t (Some (B "UUID", v, junk)) -> may_set d u -> exists d', add_property l d u (B "UUID") v junk = Ok d'
  /\ forall w, no_nul w -> w <> B "/block/blkid" -> w <> B "/" -> kv_get d' u w NS_UDEV (B "ID_FS_UUID") 0 None None = (Some ([v ++ [NUL]], 230%N), 0%Z)
     /\ kv_get d' u w NS_UDEV (B "ID_FS_UUID_ENC") 0 None None = (None, (- EPERM)%Z).
Proof.
  intros G M. destruct (uuid_lemma l t d u v junk G M) as (d' & E & R1 & R2). exists d'. split; [exact E|]. intros w N N1 N2. split.
  - apply read_allowed; [exact R1|split; [discriminate|split; discriminate]|exact N].
  - eapply read_denied; [exact R2|split; [discriminate|split; discriminate]|reflexivity|reflexivity|exact N|exact N1|exact N2].
Qed.
Lemma uuid_depends l t d u v : makes l t v -> no_nul v -> (forall buf, length buf = 256 -> l_safe l v buf = safe_text t v ++ NUL :: skipn (length (safe_text t v) + 1) buf) ->
  (forall buf, length buf = 256 -> l_encode l v buf = enc_text t v ++ NUL :: skipn (length (enc_text t v) + 1) buf) ->
  length (safe_text t v) < 223 -> length (enc_text t v) < 223 -> may_set d u ->
  exists j1 j2 d1 d2, length j1 = 256 /\ length j2 = 256 /\ add_property l d u (B "UUID") v j1 = Ok d1 /\ add_property l d u (B "UUID") v j2 = Ok d2
    /\ recs d1 (udev_var (number u) (B "ID_FS_UUID_ENC")) <> recs d2 (udev_var (number u) (B "ID_FS_UUID_ENC")).
Proof.
  intros Mk Nv Ks Ke Ls Le M. assert (G : forall c, good_value l t (Some (B "UUID", v, repeat c 256))) by (intros c; split; [cbv; intuition discriminate|split; [exact Nv|split; [apply repeat_length|exact Mk]]]).
  destruct (uuid_lemma l t d u v _ (G "a"%char) M) as (d1 & E1 & _ & R1). destruct (uuid_lemma l t d u v _ (G "b"%char) M) as (d2 & E2 & _ & R2).
  exists (repeat "a"%char 256), (repeat "b"%char 256), d1, d2. split; [apply repeat_length|]. split; [apply repeat_length|]. split; [exact E1|]. split; [exact E2|]. rewrite R1, R2. intros X.
  assert (Y : forall a b, Some (blk_record u 6 a) = Some (blk_record u 6 b) -> a = b) by (intros a b Z; injection Z as Z; exact Z). apply Y in X. clear Y R1 R2 E1 E2.
  assert (At : forall c, nth_error (firstn 224 (l_encode l v (l_safe l v (NUL :: tl (repeat c 256))))) 223 = Some c).
  { intros c. pose proof (buf_len _ (repeat_length c 256)) as Lb. rewrite (Ks _ Lb). set (s := NUL :: tl (repeat c 256)) in *.
    assert (L2 : length (safe_text t v ++ NUL :: skipn (length (safe_text t v) + 1) s) = 256) by (rewrite app_length; cbn [length]; rewrite skipn_length, Lb; clear - Ls; lia).
    assert (Ns : forall k i, k <= i -> nth_error (skipn k s) (i - k) = nth_error s i) by (intros k i Hk; rewrite <- (firstn_skipn k s) at 2; destruct (Nat.le_gt_cases k (length s)) as [Hl|Hl]; [rewrite nth_error_app2 by (rewrite firstn_length; lia); f_equal; rewrite firstn_length; lia|rewrite (skipn_all2 s) by lia; rewrite app_nil_r, firstn_all2 by lia; rewrite (proj2 (nth_error_None s i)) by lia; destruct (i - k); reflexivity]).
    rewrite (Ke _ L2). set (b := safe_text t v ++ NUL :: skipn (length (safe_text t v) + 1) s) in *.
    assert (Nb : forall k i, k <= i -> i < 256 -> k <= 256 -> nth_error (skipn k b) (i - k) = nth_error b i) by (intros k i Hk Hi Hk2; rewrite <- (firstn_skipn k b) at 2; rewrite nth_error_app2 by (rewrite firstn_length, L2; lia); f_equal; rewrite firstn_length, L2; lia).
    assert (P : forall (A : Type) (x : list A) n i, i < n -> nth_error (firstn n x) i = nth_error x i) by (intros A x; induction x as [|a x IHx]; intros [|n] [|i] Hi; try lia; try reflexivity; cbn; apply IHx; lia).
    rewrite P by lia. rewrite nth_error_app2 by lia. set (e := length (enc_text t v)) in *. replace (223 - e) with (S (223 - (e + 1))) by lia. cbn [nth_error]. rewrite Nb by lia. unfold b.
    rewrite nth_error_app2 by lia. set (q := length (safe_text t v)) in *. replace (223 - q) with (S (223 - (q + 1))) by lia. cbn [nth_error]. rewrite Ns by lia. unfold s.
    change (NUL :: tl (repeat c 256)) with (NUL :: repeat c 255). change (nth_error (NUL :: repeat c 255) 223) with (nth_error (repeat c 255) 222). rewrite (nth_error_repeat c (n := 222) (m := 255)) by lia. reflexivity. }
  apply (f_equal (fun z => nth_error z 223)) in X. rewrite (At "a"%char), (At "b"%char) in X. discriminate X.
Qed.
Lemma uuid_cut l t d u v junk : good_value l t (Some (B "UUID", v, junk)) -> may_set d u -> 224 <= length (enc_text t v) ->
  exists d', add_property l d u (B "UUID") v junk = Ok d' /\ str_get d' u (B "/block/blkid") NS_UDEV (B "ID_FS_UUID_ENC") None = UB.
Proof.
  intros G M L. destruct (uuid_lemma l t d u v junk G M) as (d' & E & _ & R). exists d'. split; [exact E|]. destruct G as (_ & _ & Lj & (_ & Ws) & (Ne & We)).
  destruct (Ws _ (buf_len junk Lj)) as (rs & _ & L1). destruct (We _ L1) as (re & E2 & _). rewrite E2 in R.
  unfold str_get. assert (Gn : good_name NS_UDEV (B "ID_FS_UUID_ENC")) by (split; [discriminate|split; discriminate]). destruct (get_lemma d' u MOD_BLKID NS_UDEV (B "ID_FS_UUID_ENC") Gn blkid_nul) as (_ & X).
  destruct (X _ R) as (_ & Y & _); [exact blkid_nul|]. change (B "/block/blkid") with MOD_BLKID. rewrite Y; [|apply may_read_match; [exact blkid_nul|exact blkid_nul|]; replace (mod_match _ MOD_BLKID) with MOD_MATCH by (vm_compute; reflexivity); exact I|discriminate].
  cbn [fst r_data blk_record]. rewrite firstn_app. replace (224 - length (enc_text t v)) with 0 by lia. cbn [firstn]. rewrite app_nil_r. unfold string_at.
  assert (Z : forall x, ~ In NUL x -> strlen x = None).
  { induction x as [|c x IHx]; intros Hx; [reflexivity|]. cbn [strlen]. destruct (Ascii.eqb_spec c NUL) as [->|_]; [elim Hx; left; reflexivity|]. rewrite IHx; [reflexivity|]. intros I. apply Hx. right. exact I. }
  rewrite Z; [reflexivity|]. intros I. apply Ne. rewrite <- (firstn_skipn 224 (enc_text t v)). apply in_or_app. left. exact I.
Qed.
Lemma encode_fails l d u v junk k s : In (s, Encoded, k) variables -> no_nul v -> may_set d u -> length junk = 256 -> fills (l_safe l) v v -> (forall buf, length buf = 256 -> no_nul (l_encode l v buf)) ->
  add_property l d u (B s) v junk = UB.
Proof.
  intros I Nv M Lj (_ & Ws) F. pose proof (buf_len junk Lj) as Lb. destruct (Ws _ Lb) as (rs & Es & Ls).
  assert (Z : forall x, ~ In NUL x -> string_at x = UB).
  { intros x Hx. unfold string_at. replace (strlen x) with (@None nat); [reflexivity|]. symmetry. induction x as [|c x IHx]; [reflexivity|]. cbn [strlen]. destruct (Ascii.eqb_spec c NUL) as [->|_]; [elim Hx; left; reflexivity|]. rewrite IHx; [reflexivity|]. intros J. apply Hx. right. exact J. }
  pose proof (Z _ (F _ Lb)) as Z1. pose proof (Z _ (F _ Ls)) as Z2.
  assert (S1 : forall d n c f, set_string d u n c (l_encode l v (NUL :: tl junk)) f = UB) by (intros; unfold set_string; rewrite Z1; reflexivity).
  assert (S2 : forall d n c f, set_string d u n c (l_encode l v (l_safe l v (NUL :: tl junk))) f = UB) by (intros; unfold set_string; rewrite Z2; reflexivity).
  unfold variables in I. cbn [In] in I. decompose [or] I; try contradiction; match goal with E : _ = (s, Encoded, k) |- _ => try discriminate E; injection E as <- <- end; unfold add_property; cbv zeta;
    repeat match goal with |- context [key_eqb (B ?a) (B ?b)] => let x := eval vm_compute in (key_eqb (B a) (B b)) in change (key_eqb (B a) (B b)) with x; cbv iota end; cbv iota;
    try (change (key_eqb (firstn 11 _) (B "PART_ENTRY_")) with false; cbv iota); try apply S1.
  - destruct (set_string d u NS_UDEV _ _ _); [cbn [obind]; apply S2|reflexivity].
  - destruct (set_string d u NS_UDEV _ _ _); [cbn [obind]; apply S2|reflexivity].
Qed.
(* reservations *)
Lemma res_key_inj n c n' c' : (n = NS_UDEV \/ n = NS_DEVICE) -> (n' = NS_UDEV \/ n' = NS_DEVICE) -> reservation_key n c = reservation_key n' c' -> (n, c) = (n', c').
Proof. intros [->| ->] [->| ->] H; cbn in H; try discriminate H; injection H as ->; reflexivity. Qed.
Lemma reserved_ok : Forall (fun p => (fst p = NS_UDEV \/ fst p = NS_DEVICE) /\ name_ok (snd p)) reserved_names.
Proof. unfold reserved_names, udev_keys. cbn [map app]. repeat (constructor; [split; [auto|split; discriminate]|]). constructor. Qed.
Lemma init_loop gen : forall l d, Forall (fun p => (fst p = NS_UDEV \/ fst p = NS_DEVICE) /\ name_ok (snd p)) l -> (forall p o, In p l -> recs d (reservation_key (fst p) (snd p)) = Some o -> r_owner o = MOD_BLKID) ->
  exists d', each (fun d n k => kv_reserve d gen MOD_BLKID n k FL_FRG_RD false) d l = Ok (d', 0%Z) /\ (forall p, In p l -> held d' (fst p) (snd p)) /\ (forall x, (forall p, In p l -> x <> reservation_key (fst p) (snd p)) -> recs d' x = recs d x).
Proof.
  induction l as [|(n & k) l IH]; intros d F O; [exists d; split; [reflexivity|]; split; [intros p []|reflexivity]|]. cbn [each]. destruct (Forall_inv F) as (Hn & Hk). cbn [fst snd] in *.
  destruct (reserve_lemma d gen MOD_BLKID n k FL_FRG_RD false Hk eq_refl blkid_nul) as (A & _). { intros o H. rewrite (O (n, k) o (or_introl eq_refl) H). exact blkid_nul. }
  destruct A as (d1 & E & R & o & Ho & Oo & Rs & Fl). { intros o H. left. exact (O (n, k) o (or_introl eq_refl) H). } rewrite E. cbn [obind Z.ltb Z.compare].
  assert (H1 : held d1 n k). { exists o. cbn [fst snd]. split; [exact Ho|]. split; [exact Oo|]. split; [exact Rs|]. split; [apply Fl; [cbn; auto 7|reflexivity]|]. repeat split; intros X; apply Fl in X; try discriminate X; cbn; auto 7. }
  destruct (IH d1 (Forall_inv_tail F)) as (d' & E' & H' & K').
  { intros p q I Hq. destruct (list_eq_dec ascii_dec (reservation_key (fst p) (snd p)) (reservation_key n k)) as [X|X]; [rewrite X in Hq; congruence|]. rewrite (R _ X) in Hq. exact (O p q (or_intror I) Hq). }
  exists d'. split; [exact E'|]. split.
  - intros p [<-|I]; [|exact (H' p I)]. destruct (in_dec (fun a b : kv_ns * bytes => ltac:(decide equality; [apply (list_eq_dec ascii_dec)|decide equality])) (n, k) l) as [I|N]; [exact (H' _ I)|].
    destruct H1 as (q & Hq & Rest). exists q. split; [|exact Rest]. rewrite K'; [exact Hq|]. intros p I X. apply N. pose proof (proj1 (Forall_forall _ _) (Forall_inv_tail F) p I) as (Hp & _).
    destruct p as (n' & k'). cbn [fst snd] in *. rewrite (res_key_inj _ _ _ _ Hn Hp X). exact I.
  - intros x Nx. rewrite K' by (intros p I; apply Nx; right; exact I). apply R. exact (Nx (n, k) (or_introl eq_refl)).
Qed.
Lemma init_lemma d gen : (forall p o, In p reserved_names -> recs d (reservation_key (fst p) (snd p)) = Some o -> r_owner o = MOD_BLKID) ->
  exists d', blkid_init d gen = Ok (d', 0%Z) /\ (forall p, In p reserved_names -> held d' (fst p) (snd p)) /\ (forall x, (forall p, In p reserved_names -> x <> reservation_key (fst p) (snd p)) -> recs d' x = recs d x).
Proof. intros H. exact (init_loop gen reserved_names d reserved_ok H). Qed.
Lemma exit_loop gen : forall l d, Forall (fun p => (fst p = NS_UDEV \/ fst p = NS_DEVICE) /\ name_ok (snd p)) l -> (forall p o, In p l -> recs d (reservation_key (fst p) (snd p)) = Some o -> r_owner o = MOD_BLKID) ->
  exists d', each (fun d n k => kv_unreserve d gen MOD_BLKID n k false) d l = Ok (d', 0%Z) /\ (forall p, In p l -> recs d' (reservation_key (fst p) (snd p)) = None) /\ (forall x, (forall p, In p l -> x <> reservation_key (fst p) (snd p)) -> recs d' x = recs d x).
Proof.
  induction l as [|(n & k) l IH]; intros d F O; [exists d; split; [reflexivity|]; split; [intros p []|reflexivity]|]. cbn [each]. destruct (Forall_inv F) as (Hn & Hk). cbn [fst snd] in *.
  destruct (unreserve_lemma d gen MOD_BLKID n k Hk blkid_nul) as (A & _). { intros o H. rewrite (O (n, k) o (or_introl eq_refl) H). exact blkid_nul. }
  destruct A as (d1 & E & R0 & R). { intros o H. left. exact (O (n, k) o (or_introl eq_refl) H). } rewrite E. cbn [obind Z.ltb Z.compare].
  destruct (IH d1 (Forall_inv_tail F)) as (d' & E' & H' & K').
  { intros p q I Hq. destruct (list_eq_dec ascii_dec (reservation_key (fst p) (snd p)) (reservation_key n k)) as [X|X]; [rewrite X in Hq; congruence|]. rewrite (R _ X) in Hq. exact (O p q (or_intror I) Hq). }
  exists d'. split; [exact E'|]. split.
  - intros p [<-|I]; [|exact (H' p I)]. cbn [fst snd]. destruct (in_dec (fun a b : kv_ns * bytes => ltac:(decide equality; [apply (list_eq_dec ascii_dec)|decide equality])) (n, k) l) as [I|N]; [exact (H' _ I)|].
    rewrite K'; [exact R0|]. intros p I X. apply N. pose proof (proj1 (Forall_forall _ _) (Forall_inv_tail F) p I) as (Hp & _). destruct p as (n' & k'). cbn [fst snd] in *. rewrite (res_key_inj _ _ _ _ Hn Hp X). exact I.
  - intros x Nx. rewrite K' by (intros p I; apply Nx; right; exact I). apply R. exact (Nx (n, k) (or_introl eq_refl)).
Qed.
Lemma exit_lemma d gen gen' : (forall p, In p reserved_names -> recs d (reservation_key (fst p) (snd p)) = None) ->
  exists d1 d2, blkid_init d gen = Ok (d1, 0%Z) /\ blkid_exit d1 gen' = Ok (d2, 0%Z) /\ forall x, recs d2 x = recs d x.
Proof.
  intros H. destruct (init_lemma d gen) as (d1 & E1 & H1 & K1); [intros p o I X; rewrite (H p I) in X; discriminate|].
  destruct (exit_loop gen' reserved_names d1 reserved_ok) as (d2 & E2 & H2 & K2). { intros p o I X. destruct (H1 p I) as (o' & Ho' & Oo & _). replace o with o' by congruence. exact Oo. }
  exists d1, d2. split; [exact E1|]. split; [exact E2|]. intros x.
  destruct (in_dec (list_eq_dec ascii_dec) x (map (fun p => reservation_key (fst p) (snd p)) reserved_names)) as [I|N].
  - apply in_map_iff in I as (p & <- & I). rewrite (H2 p I), (H p I). reflexivity.
  - assert (Y : forall p, In p reserved_names -> x <> reservation_key (fst p) (snd p)) by (intros p I ->; apply N; apply in_map_iff; exists p; auto). rewrite (K2 x Y). exact (K1 x Y).
Qed.
Lemma small_lemma p : p_stat p = 0%Z -> probe_superblocks p = p_safe p \/
  (p_char p = false /\ (p_size p <= 1474560)%N /\ p_whole p = true /\ ((fst (p_full p) < 0)%Z /\ probe_superblocks p = p_full p \/ (exists v j, In (Some (B "PTTYPE", v, j)) (snd (p_full p))) /\ probe_superblocks p = (0%Z, snd (p_full p)))).
Proof.
  intros H. unfold probe_superblocks. rewrite H. change (negb (0 =? 0)%Z) with false. cbv iota. change (1024 * 1440)%N with 1474560%N. destruct (p_char p); [left; reflexivity|]. destruct (N.leb_spec (p_size p) 1474560) as [L|L]; [|left; reflexivity]. destruct (p_whole p); [|left; reflexivity]. cbn [negb andb].
  destruct (Z.ltb_spec (fst (p_full p)) 0) as [Lz|Lz]; [right; repeat (split; [auto|]); left; auto|]. destruct (has_pttype (snd (p_full p))) eqn:E; [|left; reflexivity]. right. repeat (split; [auto|]). right. split; [|reflexivity].
  apply existsb_exists in E as ([((a & b) & c)|] & I & K); [|discriminate]. destruct (key_eqb_spec a (B "PTTYPE")) as [->|]; [|discriminate]. exists b, c. exact I.
Qed.
Lemma reserves_lemma n k : reserves n k <-> In (n, k) reserved_names.
Proof.
  unfold reserves, reserved_names. rewrite in_app_iff, in_map_iff. cbn [In]. split.
  - intros [(-> & [(s & h & x & I & ->)| ->])|(-> & ->)]; [left|left|right; left; reflexivity].
    + exists (B x). split; [reflexivity|]. unfold variables in I. cbn [In] in I. unfold udev_keys. decompose [or] I; try contradiction; match goal with E : _ = (s, h, x) |- _ => injection E as <- <- <- end; cbn [In]; repeat (first [left; reflexivity|right]).
    + exists (B "ID_FS_UUID_ENC"). split; [reflexivity|]. unfold udev_keys. cbn [In]. auto 8.
  - intros [(x & E & I)|[E|[]]]; [|injection E as <- <-; right; auto]. injection E as <- <-. left. split; [reflexivity|]. unfold udev_keys in I. cbn [In] in I.
    decompose [or] I; try contradiction; match goal with E : B _ = x |- _ => subst x end; first [right; reflexivity|left; eexists; eexists; eexists; split; [|reflexivity]; unfold variables; cbn [In]; repeat (first [left; reflexivity|right])].
Qed.
Lemma init_all d gen : (forall n k o, reserves n k -> recs d (reservation_key n k) = Some o -> r_owner o = B "/block/blkid") ->
  exists d', blkid_init d gen = Ok (d', 0%Z) /\ (forall n k, reserves n k -> held d' n k) /\ (forall x, (forall n k, reserves n k -> x <> reservation_key n k) -> recs d' x = recs d x).
Proof.
  intros H. destruct (init_lemma d gen) as (d' & E & H1 & H2). { intros (n & k) o I X. apply reserves_lemma in I. exact (H n k o I X). }
  exists d'. split; [exact E|]. split; [intros n k I; apply reserves_lemma in I; exact (H1 (n, k) I)|]. intros x Nx. apply H2. intros (n & k) I. apply Nx. apply reserves_lemma. exact I.
Qed.
Lemma exit_all d gen gen' : (forall n k, reserves n k -> recs d (reservation_key n k) = None) -> exists d1 d2, blkid_init d gen = Ok (d1, 0%Z) /\ blkid_exit d1 gen' = Ok (d2, 0%Z) /\ forall x, recs d2 x = recs d x.
Proof. intros H. apply exit_lemma. intros (n & k) I. apply H. apply reserves_lemma. exact I. Qed.
