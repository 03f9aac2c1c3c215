(* The effect of one value found *)
From Verif Require Import Base Tok_Model UbrKey_Model UbrKey_Spec UbrKey_Proofs UbrDb_Model UbrRec_Model UbrRec_Proofs UbrPerm_Spec UbrPerm_Proofs Lvm_Model Lvm_Spec Lvm_Proofs Blkid_Model Blkid_Spec.
Local Open Scope nat_scope.

Definition item : Type := kv_ns * bytes * bytes * N.
Fixpoint run (d : db) (u : ucmd) (l : list item) : outcome db :=
  match l with
  | [] => Ok d
  | (n, c, x, f) :: l => let! (d, _, _) := kv_set d u MOD_BLKID n c (Some x) f in run d u l
  end.
Definition tab (name : bytes) : list (string * how) := flat_map (fun e => if key_eqb name (B (fst (fst e))) then [(snd e, snd (fst e))] else []) variables.
Definition special (l : lib) (name value junk : bytes) : list item :=
  (if key_eqb name (B "TYPE") then match type_lookup value with Some m => [(NS_DEVICE, K_NEXT, m ++ [NUL], 230%N)] | None => [] end else [])
  ++ (if key_eqb name (B "UUID") then [(NS_UDEV, B "ID_FS_UUID_ENC", firstn 224 (l_encode l value (l_safe l value (NUL :: tl junk))), 0%N)] else [])
  ++ (if key_eqb (firstn 11 name) (B "PART_ENTRY_") && negb (key_eqb name (B "PART_ENTRY_NAME")) && negb (key_eqb name (B "PART_ENTRY_TYPE"))
      then [(NS_UDEV, firstn 255 (B "ID_" ++ name), value ++ [NUL], 224%N)] else []).
Definition items (l : lib) (t : texts) (name value junk : bytes) : list item :=
  map (fun e => (NS_UDEV, B (fst e), text t (snd e) value ++ [NUL], 224%N)) (tab name) ++ special l name value junk.

Lemma set_string_eq d u n k v rest f : no_nul v -> set_string d u n k (v ++ NUL :: rest) f = let! (d, _, _) := kv_set d u MOD_BLKID n k (Some (v ++ [NUL])) f in Ok d.
Proof. intros H. unfold set_string. rewrite string_ok by exact H. cbn [obind]. unfold str_set. destruct (kv_set _ _ _ _ _ _ _) as [((a & b) & c)|]; reflexivity. Qed.
Lemma plain_eq d u n k v f : no_nul v -> set_string d u n k (v ++ [NUL]) f = let! (d, _, _) := kv_set d u MOD_BLKID n k (Some (v ++ [NUL])) f in Ok d.
Proof. exact (set_string_eq d u n k v [] f). Qed.
Lemma buf_len junk : length junk = 256 -> length (NUL :: tl junk) = 256.
Proof. destruct junk; [discriminate|exact (fun H => H)]. Qed.
Lemma types_end t m : type_lookup t = Some m -> no_nul m.
Proof.
  unfold type_lookup. destruct (find _ _) as [(a & b)|] eqn:E; [|discriminate]. intros X. injection X as ->. apply find_some in E as (I & _).
  assert (F : forallb (fun e => negb (existsb (Ascii.eqb NUL) (snd e))) type_table = true) by (vm_compute; reflexivity). rewrite forallb_forall in F. apply F in I. cbn [snd] in I.
  intros N. apply negb_true_iff in I. assert (Y : existsb (Ascii.eqb NUL) m = true); [|congruence]. apply existsb_exists. exists NUL. split; [exact N|apply Ascii.eqb_refl].
Qed.
Ltac use_tab := match goal with |- context [tab ?n] => let x := eval vm_compute in (tab n) in replace (tab n) with x by (vm_compute; reflexivity) end.
Lemma run_one d u n k x f : (let! (d, _, _) := kv_set d u MOD_BLKID n k (Some x) f in Ok d) = run d u [(n, k, x, f)].
Proof. reflexivity. Qed.
Lemma run_two d u n k x f m k' y g : (let! d := (let! (d, _, _) := kv_set d u MOD_BLKID n k (Some x) f in Ok d) in let! (d, _, _) := kv_set d u MOD_BLKID m k' (Some y) g in Ok d) = run d u [(n, k, x, f); (m, k', y, g)].
Proof. cbn [run]. destruct (kv_set d u MOD_BLKID n k (Some x) f) as [((a & b) & c)|]; reflexivity. Qed.
Lemma add_run l t d u name value junk : good_value l t (Some (name, value, junk)) -> add_property l d u name value junk = run d u (items l t name value junk).
Proof.
  intros (Nn & Nv & Lj & (Fs & Ws) & (Fe & We)). pose proof (buf_len junk Lj) as Lb. destruct (Ws _ Lb) as (rs & Es & Ls). destruct (We _ Lb) as (re & Ee & Le). destruct (We _ Ls) as (r2 & E2 & L2).
  change (l_safe l value (NUL :: tl junk)) with (l_safe l value (NUL :: tl junk)) in *.
  unfold add_property. change FL_RD with 224%N. change (N.lor FL_SYNC_P 224) with 230%N. cbv zeta.
  destruct (key_eqb name (B "TYPE")) eqn:E1. { destruct (key_eqb_spec name (B "TYPE")) as [->|]; [|discriminate]. unfold items. use_tab. unfold special. rewrite key_eqb_refl. change (key_eqb (B "TYPE") (B "UUID")) with false. change (key_eqb (firstn 11 (B "TYPE")) (B "PART_ENTRY_")) with false.
    cbn [map app andb fst snd text]. rewrite plain_eq by exact Nv. destruct (type_lookup value) as [m|] eqn:Et.
    - cbn [app]. rewrite <- run_two. destruct (kv_set d u _ _ _ _ _) as [((a & b) & c)|]; [|reflexivity]. cbn [obind]. apply plain_eq. exact (types_end _ _ Et).
    - cbn [app]. rewrite <- run_one. destruct (kv_set d u _ _ _ _ _) as [((a & b) & c)|]; reflexivity. }
  Local Ltac single x := match goal with E : key_eqb ?n x = true |- _ => destruct (key_eqb_spec n x) as [->|]; [|discriminate] end; unfold items; use_tab; unfold special; cbn [map app andb fst snd text];
    repeat match goal with |- context [key_eqb ?a ?b] => let v := eval vm_compute in (key_eqb a b) in change (key_eqb a b) with v end; cbn [app andb negb].
  destruct (key_eqb name (B "USAGE")) eqn:A1. { single (B "USAGE"). rewrite plain_eq by exact Nv. reflexivity. }
  destruct (key_eqb name (B "VERSION")) eqn:A2. { single (B "VERSION"). rewrite plain_eq by exact Nv. reflexivity. }
  destruct (key_eqb name (B "UUID")) eqn:A3. { single (B "UUID"). rewrite plain_eq by exact Nv. rewrite <- run_two. destruct (kv_set d u _ _ _ _ _) as [((a & b) & c)|]; [|reflexivity]. cbn [obind]. unfold set_sized.
    rewrite L2. change (N.to_nat 224) with 224. replace (256 <? 224) with false by lia. destruct (kv_set a u _ _ _ _ _) as [((a' & b') & c')|]; reflexivity. }
  destruct (key_eqb name (B "UUID_SUB")) eqn:A4. { single (B "UUID_SUB"). rewrite plain_eq by exact Nv. rewrite <- run_two. destruct (kv_set d u _ _ _ _ _) as [((a & b) & c)|]; [|reflexivity]. cbn [obind]. rewrite E2. apply set_string_eq. exact Fe. }
  destruct (key_eqb name (B "LABEL")) eqn:A5. { single (B "LABEL"). rewrite Es at 1. rewrite set_string_eq by exact Fs. rewrite <- run_two. destruct (kv_set d u _ _ _ _ _) as [((a & b) & c)|]; [|reflexivity]. cbn [obind]. rewrite E2. apply set_string_eq. exact Fe. }
  destruct (key_eqb name (B "PTTYPE")) eqn:A6. { single (B "PTTYPE"). rewrite plain_eq by exact Nv. reflexivity. }
  destruct (key_eqb name (B "PTUUID")) eqn:A7. { single (B "PTUUID"). rewrite plain_eq by exact Nv. reflexivity. }
  destruct (key_eqb name (B "PART_ENTRY_NAME")) eqn:A8. { single (B "PART_ENTRY_NAME"). rewrite Ee, set_string_eq by exact Fe. reflexivity. }
  destruct (key_eqb name (B "PART_ENTRY_TYPE")) eqn:A9. { single (B "PART_ENTRY_TYPE"). rewrite Ee, set_string_eq by exact Fe. reflexivity. }
  assert (P : key_eqb (firstn 11 name) (B "PART_ENTRY_") = true -> forall x, In x ["SYSTEM_ID"; "PUBLISHER_ID"; "APPLICATION_ID"; "BOOT_SYSTEM_ID"]%string -> key_eqb name (B x) = false).
  { intros H x I. destruct (key_eqb_spec name (B x)) as [->|]; [|reflexivity]. cbn [In] in I. decompose [or] I; try contradiction; subst x; vm_compute in H; discriminate H. }
  destruct (key_eqb (firstn 11 name) (B "PART_ENTRY_")) eqn:Ep.
  { unfold items, tab, variables, special. cbn [flat_map fst snd]. rewrite E1, A1, A2, A3, A4, A5, A6, A7, A8, A9, Ep. rewrite !P by (auto; cbn; auto 6). cbn [app map andb negb]. rewrite plain_eq by exact Nv. reflexivity. }
  destruct (key_eqb name (B "SYSTEM_ID")) eqn:B1. { single (B "SYSTEM_ID"). rewrite Ee, set_string_eq by exact Fe. reflexivity. }
  destruct (key_eqb name (B "PUBLISHER_ID")) eqn:B2. { single (B "PUBLISHER_ID"). rewrite Ee, set_string_eq by exact Fe. reflexivity. }
  destruct (key_eqb name (B "APPLICATION_ID")) eqn:B3. { single (B "APPLICATION_ID"). rewrite Ee, set_string_eq by exact Fe. reflexivity. }
  destruct (key_eqb name (B "BOOT_SYSTEM_ID")) eqn:B4. { single (B "BOOT_SYSTEM_ID"). rewrite Ee, set_string_eq by exact Fe. reflexivity. }
  unfold items, tab, variables, special. cbn [flat_map fst snd]. rewrite E1, A1, A2, A3, A4, A5, A6, A7, A8, A9, Ep, B1, B2, B3, B4. reflexivity.
Qed.
Definition entry (u : ucmd) (i : item) : bytes * rec :=
  let '(n, c, x, f) := i in (record_key u MOD_BLKID n c, Rec (u_seq u) (if ns_eqb n NS_UDEV then N.lor f 6 else f) (u_gen u) MOD_BLKID [x]).
Definition good_item (i : item) : Prop := let '(n, c, x, f) := i in good_name n c /\ N.testbit f 3 = false /\ (n = NS_UDEV \/ (n = NS_DEVICE /\ c = K_NEXT)).
Lemma blkid_nul : no_nul MOD_BLKID. Proof. cbv. intuition discriminate. Qed.
Lemma own_writable d k r : recs d k = Some r -> r_owner r = MOD_BLKID -> writable d MOD_BLKID k.
Proof.
  intros H O o E. rewrite H in E. injection E as <-. rewrite O. split; [exact blkid_nul|]. apply may_write_match; [rewrite O; exact blkid_nul|exact blkid_nul|]. rewrite O.
  replace (mod_match MOD_BLKID MOD_BLKID) with MOD_MATCH by (vm_compute; reflexivity). exact I.
Qed.
Lemma udev_record u c : record_key u MOD_BLKID NS_UDEV c = udev_var (number u) c.
Proof. unfold record_key, udev_var, number. cbn [app B list_ascii_of_string]. reflexivity. Qed.
Lemma next_record u : record_key u MOD_BLKID NS_DEVICE K_NEXT = next_key u.
Proof. unfold record_key, next_key, uid. cbn [app B list_ascii_of_string]. reflexivity. Qed.
Lemma item_writable d u i : good_item i -> may_set d u -> writable d MOD_BLKID (fst (entry u i)).
Proof. destruct i as (((n & c) & x) & f). intros (_ & _ & [->|(-> & ->)]) (H1 & H2); cbn [entry fst]; [rewrite udev_record; apply H1|rewrite next_record; exact H2]. Qed.
Lemma find_app_rec (l m : list (bytes * rec)) k : find (fun p => key_eqb (fst p) k) (l ++ m) = match find (fun p => key_eqb (fst p) k) l with Some p => Some p | None => find (fun p => key_eqb (fst p) k) m end.
Proof. induction l as [|p l IH]; [reflexivity|]. cbn [app find]. destruct (key_eqb (fst p) k); [reflexivity|exact IH]. Qed.
Lemma sets_then l m d d1 d2 : sets (rev l) d d1 -> sets (rev m) d1 d2 -> sets (rev (l ++ m)) d d2.
Proof. intros A C k. rewrite rev_app_distr, find_app_rec, (C k), (A k). destruct (find _ (rev m)) as [(a, r)|]; reflexivity. Qed.
Lemma sets_may l d d' u : (forall p, In p l -> r_owner (snd p) = MOD_BLKID) -> sets l d d' -> may_set d u -> may_set d' u.
Proof.
  intros O S (H1 & H2). assert (K : forall k, writable d MOD_BLKID k -> writable d' MOD_BLKID k).
  { intros k W. pose proof (S k) as E. destruct (find _ l) as [(a, r)|] eqn:F; [|intros o Eo; apply W; congruence]. apply find_some in F as (F & _). exact (own_writable d' k r E (O _ F)). }
  split; [intros k; apply K, H1|apply K, H2].
Qed.
Lemma run_lemma u : forall l d, Forall good_item l -> may_set d u -> exists d', run d u l = Ok d' /\ sets (rev (map (entry u) l)) d d' /\ may_set d' u.
Proof.
  induction l as [|i l IH]; intros d G M; [exists d; split; [reflexivity|]; split; [intros k; reflexivity|exact M]|].
  pose proof (item_writable d u i (Forall_inv G) M) as W. pose proof (Forall_inv G) as Gi. destruct i as (((n & c) & x) & f). destruct Gi as (Gn & Gf & _).
  destruct (allowed_lemma d u MOD_BLKID n c (Some x) f Gn blkid_nul W) as (d1 & E & R1 & _ & R2). cbn [run]. rewrite E. cbn [obind].
  assert (S1 : sets (rev [entry u (n, c, x, f)]) d d1).
  { intros k. cbn [rev app find fst entry]. destruct (key_eqb_spec (record_key u MOD_BLKID n c) k) as [<-|N]; [exact R1|]. apply R2; [congruence|]. intros _. left. exact Gf. }
  destruct (IH d1 (Forall_inv_tail G)) as (d' & E' & S' & M').
  { refine (sets_may _ _ _ _ _ S1 M). intros p [<-|[]]. reflexivity. }
  exists d'. split; [exact E'|]. split; [|exact M']. exact (sets_then [_] _ _ _ _ S1 S').
Qed.
Lemma type_table_name t m : type_lookup t = Some m <-> handles m t.
Proof.
  unfold type_lookup, handles. split.
  - destruct (find _ _) as [(a & b)|] eqn:E; [|discriminate]. intros X. injection X as ->. apply find_some in E as (I & K). cbn [fst] in K. destruct (key_eqb_spec a t) as [->|]; [|discriminate].
    assert (F : forallb (fun e => existsb (fun g => key_eqb (fst g) (snd e) && existsb (key_eqb (fst e)) (snd g)) modules) type_table = true) by (vm_compute; reflexivity).
    rewrite forallb_forall in F. apply F in I. apply existsb_exists in I as ((m' & ts) & Ig & Hg). cbn [fst snd] in Hg. apply andb_prop in Hg as (Hm & Ht). destruct (key_eqb_spec m' m) as [->|]; [|discriminate].
    apply existsb_exists in Ht as (t' & It & Et). destruct (key_eqb_spec t t') as [->|]; [|discriminate]. exists ts. auto.
  - intros (ts & Ig & It).
    assert (F : forallb (fun g => forallb (fun t => match find (fun e => key_eqb (fst e) t) type_table with Some (_, m) => key_eqb m (fst g) | None => false end) (snd g)) modules = true) by (vm_compute; reflexivity).
    rewrite forallb_forall in F. apply F in Ig. cbn [snd fst] in Ig. rewrite forallb_forall in Ig. apply Ig in It. destruct (find _ type_table) as [[a c]|]; [|discriminate]. destruct (key_eqb_spec c m) as [Ec|]; [rewrite Ec; reflexivity|discriminate].
Qed.
Lemma tab_in name k h : In (k, h) (tab name) <-> exists s, In (s, h, k) variables /\ name = B s.
Proof.
  unfold tab. rewrite in_flat_map. split.
  - intros (((s & h') & k') & I & J). cbn [fst snd] in J. destruct (key_eqb_spec name (B s)) as [->|]; [|destruct J]. destruct J as [J|[]]. injection J as -> ->. exists s. auto.
  - intros (s & I & ->). exists (s, h, k). split; [exact I|]. cbn [fst snd]. rewrite key_eqb_refl. left. reflexivity.
Qed.
Lemma items_good l t name value junk : Forall good_item (items l t name value junk).
Proof.
  assert (U : forall c, hd_error c = Some "I"%char -> good_name NS_UDEV c) by (intros c H; split; [discriminate|]; split; [intros ->; discriminate|rewrite H; discriminate]).
  apply Forall_forall. intros i H. apply in_app_or in H as [H|H].
  - apply in_map_iff in H as ((k & h) & <- & H). cbn [fst snd]. apply tab_in in H as (s & H & _). split; [apply U|split; [reflexivity|left; reflexivity]].
    unfold variables in H. cbn [In] in H. decompose [or] H; try contradiction; match goal with E : _ = (s, h, k) |- _ => injection E as <- <- <- end; reflexivity.
  - unfold special in H. apply in_app_or in H as [H|H].
    + destruct (key_eqb name (B "TYPE")); [|destruct H]. destruct (type_lookup value); [|destruct H]. destruct H as [<-|[]]. split; [split; [discriminate|split; discriminate]|]. split; [reflexivity|right; split; reflexivity].
    + apply in_app_or in H as [H|H].
      * destruct (key_eqb name (B "UUID")); [|destruct H]. destruct H as [<-|[]]. split; [apply U; reflexivity|]. split; [reflexivity|left; reflexivity].
      * destruct (_ && _); [|destruct H]. destruct H as [<-|[]]. split; [apply U; reflexivity|]. split; [reflexivity|left; reflexivity].
Qed.
Lemma add_lemma l t d u name value junk : good_value l t (Some (name, value, junk)) -> may_set d u ->
  exists d', add_property l d u name value junk = Ok d' /\ sets (rev (map (entry u) (items l t name value junk))) d d' /\ may_set d' u.
Proof. intros G M. rewrite (add_run l t d u name value junk G). apply run_lemma; [apply items_good|exact M]. Qed.
Lemma B_inj a b : B a = B b -> a = b.
Proof. intros H. apply (f_equal string_of_list_ascii) in H. unfold B in H. rewrite !string_of_list_ascii_of_string in H. exact H. Qed.
Definition how_eqb (a b : how) : bool := match a, b with Plain, Plain | Safe, Safe | Encoded, Encoded => true | _, _ => false end.
Lemma unique_var s h k s' h' : In (s, h, k) variables -> In (s', h', k) variables -> s = s' /\ h = h'.
Proof.
  intros H1 H2.
  assert (F : forallb (fun a => forallb (fun b => negb (String.eqb (snd a) (snd b)) || (String.eqb (fst (fst a)) (fst (fst b)) && how_eqb (snd (fst a)) (snd (fst b)))) variables) variables = true) by (vm_compute; reflexivity).
  rewrite forallb_forall in F. apply F in H1. rewrite forallb_forall in H1. apply H1 in H2. cbn [fst snd] in H2. rewrite String.eqb_refl in H2. cbn [negb orb] in H2. apply andb_prop in H2 as (A & C).
  apply String.eqb_eq in A. split; [exact A|]. destruct h, h'; try discriminate C; reflexivity.
Qed.
Lemma var_head s h k : In (s, h, k) variables -> k <> "ID_FS_UUID_ENC"%string /\ (forall r, B k = B "ID_PART_ENTRY_" ++ r -> r = B "NAME" \/ r = B "TYPE") /\ length (B k) < 255.
Proof.
  intros H. unfold variables in H. cbn [In] in H. decompose [or] H; try contradiction; match goal with E : _ = (s, h, k) |- _ => injection E as <- <- <- end;
    (split; [discriminate|]; split; [intros r Hr; cbn in Hr; try discriminate Hr; injection Hr as <-; auto|cbv; lia]).
Qed.
Lemma udev_key_inj u c c' : udev_var (number u) c = udev_var (number u) c' -> c = c'.
Proof. unfold udev_var. intros H. apply app_inv_head in H. apply app_inv_head in H. apply app_inv_head in H. exact H. Qed.
Lemma udev_not_next u c : udev_var (number u) c <> next_key u.
Proof. unfold udev_var, next_key. cbn. discriminate. Qed.
Lemma part_split name : key_eqb (firstn 11 name) (B "PART_ENTRY_") = true -> exists rest, name = B "PART_ENTRY_" ++ rest.
Proof. intros H. destruct (key_eqb_spec (firstn 11 name) (B "PART_ENTRY_")) as [E|]; [|discriminate]. exists (skipn 11 name). rewrite <- E. symmetry. apply firstn_skipn. Qed.
Lemma in_items l t name value junk i : In i (items l t name value junk) ->
  (exists s h k, In (s, h, k) variables /\ name = B s /\ i = (NS_UDEV, B k, text t h value ++ [NUL], 224%N))
  \/ (exists m, name = B "TYPE" /\ type_lookup value = Some m /\ i = (NS_DEVICE, K_NEXT, m ++ [NUL], 230%N))
  \/ (name = B "UUID" /\ i = (NS_UDEV, B "ID_FS_UUID_ENC", firstn 224 (l_encode l value (l_safe l value (NUL :: tl junk))), 0%N))
  \/ (exists rest, name = B "PART_ENTRY_" ++ rest /\ rest <> B "NAME" /\ rest <> B "TYPE" /\ i = (NS_UDEV, B "ID_PART_ENTRY_" ++ firstn 241 rest, value ++ [NUL], 224%N)).
Proof.
  intros H. apply in_app_or in H as [H|H].
  - apply in_map_iff in H as ((k & h) & <- & H). apply tab_in in H as (s & I & ->). left. exists s, h, k. auto.
  - unfold special in H. apply in_app_or in H as [H|H].
    + right. left. destruct (key_eqb_spec name (B "TYPE")) as [->|]; [|destruct H]. destruct (type_lookup value) as [m|]; [|destruct H]. destruct H as [<-|[]]. exists m. auto.
    + right. right. apply in_app_or in H as [H|H].
      * left. destruct (key_eqb_spec name (B "UUID")) as [->|]; [|destruct H]. destruct H as [<-|[]]. auto.
      * right. destruct (key_eqb (firstn 11 name) (B "PART_ENTRY_")) eqn:E; [|destruct H]. apply part_split in E as (rest & ->). exists rest.
        destruct (key_eqb_spec (B "PART_ENTRY_" ++ rest) (B "PART_ENTRY_NAME")) as [|N1]; [destruct H|]. destruct (key_eqb_spec (B "PART_ENTRY_" ++ rest) (B "PART_ENTRY_TYPE")) as [|N2]; [destruct H|].
        destruct H as [<-|[]]. split; [reflexivity|]. split; [intros ->; apply N1; reflexivity|]. split; [intros ->; apply N2; reflexivity|]. reflexivity.
Qed.
Lemma find_rev_none (l : list (bytes * rec)) k : (forall p, In p l -> fst p <> k) -> find (fun p => key_eqb (fst p) k) (rev l) = None.
Proof. intros H. apply find_none. intros I. apply in_map_iff in I as (p & E & I). apply in_rev in I. exact (H p I E). Qed.
Lemma find_rev_only (l : list (bytes * rec)) k r : In (k, r) l -> (forall p, In p l -> fst p = k -> p = (k, r)) -> find (fun p => key_eqb (fst p) k) (rev l) = Some (k, r).
Proof.
  intros I U. destruct (find _ (rev l)) as [p|] eqn:E.
  - apply find_some in E as (Ip & K). apply in_rev in Ip. destruct (key_eqb_spec (fst p) k) as [X|]; [|discriminate]. f_equal. exact (U p Ip X).
  - exfalso. apply in_rev in I. pose proof (List.find_none _ _ E _ I) as Z. cbn [fst] in Z. rewrite key_eqb_refl in Z. discriminate.
Qed.
(* one value: what happens to each key *)
Lemma step_var l t u name value junk d d1 s h k : sets (rev (map (entry u) (items l t name value junk))) d d1 -> In (s, h, k) variables ->
  recs d1 (udev_var (number u) (B k)) = if list_eq_dec ascii_dec name (B s) then Some (blk_record u 230 (text t h value ++ [NUL])) else recs d (udev_var (number u) (B k)).
Proof.
  intros S V. rewrite (S _).
  assert (U : forall p, In p (map (entry u) (items l t name value junk)) -> fst p = udev_var (number u) (B k) -> name = B s /\ p = (udev_var (number u) (B k), blk_record u 230 (text t h value ++ [NUL]))).
  { intros p I E. apply in_map_iff in I as (i & <- & I). apply in_items in I. destruct (var_head s h k V) as (V1 & V2 & V3).
    destruct I as [(s' & h' & k' & V' & -> & ->)|[(m & _ & _ & ->)|[(_ & ->)|(rest & _ & R1 & R2 & ->)]]]; cbn [entry fst] in E; try rewrite udev_record in E; try rewrite next_record in E.
    - apply udev_key_inj, B_inj in E. subst k'. destruct (unique_var _ _ _ _ _ V' V) as (-> & ->). split; [reflexivity|]. cbn [entry]. rewrite udev_record. reflexivity.
    - symmetry in E. apply udev_not_next in E. contradiction.
    - apply udev_key_inj, B_inj in E. congruence.
    - apply udev_key_inj in E. exfalso. assert (L : length rest <= 241).
      { apply (f_equal (@length ascii)) in E. rewrite app_length, firstn_length in E. change (length (B "ID_PART_ENTRY_")) with 14 in E. clear - E V3. lia. }
      rewrite firstn_all2 in E by exact L. symmetry in E. destruct (V2 rest E); contradiction. }
  destruct (list_eq_dec ascii_dec name (B s)) as [->|N].
  - rewrite (find_rev_only _ (udev_var (number u) (B k)) (blk_record u 230 (text t h value ++ [NUL]))); [reflexivity| |intros p I E; exact (proj2 (U p I E))].
    apply in_map_iff. exists (NS_UDEV, B k, text t h value ++ [NUL], 224%N). split; [cbn [entry]; rewrite udev_record; reflexivity|]. apply in_or_app. left. apply in_map_iff. exists (k, h). split; [reflexivity|]. apply tab_in. exists s. auto.
  - rewrite find_rev_none; [reflexivity|]. intros p I E. apply N. exact (proj1 (U p I E)).
Qed.
Lemma step_next l t u name value junk d d1 : sets (rev (map (entry u) (items l t name value junk))) d d1 ->
  recs d1 (next_key u) = match (if list_eq_dec ascii_dec name (B "TYPE") then type_lookup value else None) with Some m => Some (blk_record u 230 (m ++ [NUL])) | None => recs d (next_key u) end.
Proof.
  intros S. rewrite (S _).
  assert (U : forall p, In p (map (entry u) (items l t name value junk)) -> fst p = next_key u -> exists m, name = B "TYPE" /\ type_lookup value = Some m /\ p = (next_key u, blk_record u 230 (m ++ [NUL]))).
  { intros p I E. apply in_map_iff in I as (i & <- & I). apply in_items in I.
    destruct I as [(s' & h' & k' & V' & -> & ->)|[(m & A1 & A2 & ->)|[(_ & ->)|(rest & _ & R1 & R2 & ->)]]]; cbn [entry fst] in E; try rewrite udev_record in E; try (apply udev_not_next in E; contradiction).
    exists m. split; [exact A1|]. split; [exact A2|]. cbn [entry]. rewrite next_record. reflexivity. }
  destruct (list_eq_dec ascii_dec name (B "TYPE")) as [->|N].
  - destruct (type_lookup value) as [m|] eqn:Et.
    + rewrite (find_rev_only _ (next_key u) (blk_record u 230 (m ++ [NUL]))); [reflexivity| |].
      * apply in_map_iff. exists (NS_DEVICE, K_NEXT, m ++ [NUL], 230%N). split; [cbn [entry]; rewrite next_record; reflexivity|]. apply in_or_app. right. unfold special. rewrite key_eqb_refl, Et. left. reflexivity.
      * intros p I E. destruct (U p I E) as (m' & _ & X & ->). congruence.
    + rewrite find_rev_none; [reflexivity|]. intros p I E. destruct (U p I E) as (m' & _ & X & _). discriminate.
  - rewrite find_rev_none; [reflexivity|]. intros p I E. destruct (U p I E) as (m' & X & _). contradiction.
Qed.
Lemma step_part l t u name value junk d d1 rest : sets (rev (map (entry u) (items l t name value junk))) d d1 -> partition_name rest ->
  recs d1 (udev_var (number u) (B "ID_PART_ENTRY_" ++ rest)) = if list_eq_dec ascii_dec name (B "PART_ENTRY_" ++ rest) then Some (blk_record u 230 (value ++ [NUL])) else recs d (udev_var (number u) (B "ID_PART_ENTRY_" ++ rest)).
Proof.
  intros S (P1 & P2 & P3). rewrite (S _).
  assert (U : forall p, In p (map (entry u) (items l t name value junk)) -> fst p = udev_var (number u) (B "ID_PART_ENTRY_" ++ rest) -> name = B "PART_ENTRY_" ++ rest /\ p = (udev_var (number u) (B "ID_PART_ENTRY_" ++ rest), blk_record u 230 (value ++ [NUL]))).
  { intros p I E. apply in_map_iff in I as (i & <- & I). apply in_items in I.
    destruct I as [(s' & h' & k' & V' & -> & ->)|[(m & _ & _ & ->)|[(_ & ->)|(r & -> & R1 & R2 & ->)]]]; cbn [entry fst] in E; try rewrite udev_record in E; try rewrite next_record in E.
    - apply udev_key_inj in E. destruct (var_head s' h' k' V') as (_ & V2 & _). destruct (V2 rest E); contradiction.
    - symmetry in E. apply udev_not_next in E. contradiction.
    - apply udev_key_inj in E. cbn in E. discriminate E.
    - apply udev_key_inj, app_inv_head in E. assert (L : length r <= 241).
      { apply (f_equal (@length ascii)) in E. rewrite firstn_length in E. clear - E P3. lia. }
      rewrite firstn_all2 in E by exact L. subst r. split; [reflexivity|]. cbn [entry]. rewrite udev_record, firstn_all2 by exact L. reflexivity. }
  destruct (list_eq_dec ascii_dec name (B "PART_ENTRY_" ++ rest)) as [->|N].
  - rewrite (find_rev_only _ (udev_var (number u) (B "ID_PART_ENTRY_" ++ rest)) (blk_record u 230 (value ++ [NUL]))); [reflexivity| |intros p I E; exact (proj2 (U p I E))].
    apply in_map_iff. exists (NS_UDEV, B "ID_PART_ENTRY_" ++ rest, value ++ [NUL], 224%N). split; [cbn [entry]; rewrite udev_record; reflexivity|]. apply in_or_app. right. unfold special. apply in_or_app. right. apply in_or_app. right.
    change (firstn 11 (B "PART_ENTRY_" ++ rest)) with (B "PART_ENTRY_"). rewrite key_eqb_refl.
    destruct (key_eqb_spec (B "PART_ENTRY_" ++ rest) (B "PART_ENTRY_NAME")) as [X|_]; [exfalso; apply P1; exact (app_inv_head (B "PART_ENTRY_") rest (B "NAME") X)|].
    destruct (key_eqb_spec (B "PART_ENTRY_" ++ rest) (B "PART_ENTRY_TYPE")) as [X|_]; [exfalso; apply P2; exact (app_inv_head (B "PART_ENTRY_") rest (B "TYPE") X)|].
    left. f_equal. f_equal. f_equal. change (B "ID_" ++ B "PART_ENTRY_" ++ rest) with (B "ID_PART_ENTRY_" ++ rest). apply firstn_all2. rewrite app_length. change (length (B "ID_PART_ENTRY_")) with 14. clear - P3. lia.
  - rewrite find_rev_none; [reflexivity|]. intros p I E. apply N. exact (proj1 (U p I E)).
Qed.
Lemma step_uuid l t u name value junk d d1 : sets (rev (map (entry u) (items l t name value junk))) d d1 ->
  recs d1 (udev_var (number u) (B "ID_FS_UUID_ENC")) = if list_eq_dec ascii_dec name (B "UUID") then Some (blk_record u 6 (firstn 224 (l_encode l value (l_safe l value (NUL :: tl junk))))) else recs d (udev_var (number u) (B "ID_FS_UUID_ENC")).
Proof.
  intros S. rewrite (S _). set (r := blk_record u 6 _).
  assert (U : forall p, In p (map (entry u) (items l t name value junk)) -> fst p = udev_var (number u) (B "ID_FS_UUID_ENC") -> name = B "UUID" /\ p = (udev_var (number u) (B "ID_FS_UUID_ENC"), r)).
  { intros p I E. apply in_map_iff in I as (i & <- & I). apply in_items in I.
    destruct I as [(s' & h' & k' & V' & -> & ->)|[(m & _ & _ & ->)|[(A & ->)|(q & -> & R1 & R2 & ->)]]]; cbn [entry fst] in E; try rewrite udev_record in E; try rewrite next_record in E.
    - apply udev_key_inj, B_inj in E. destruct (var_head s' h' k' V') as (V1 & _). contradiction.
    - symmetry in E. apply udev_not_next in E. contradiction.
    - split; [exact A|]. cbn [entry]. rewrite udev_record. reflexivity.
    - apply udev_key_inj in E. cbn in E. discriminate E. }
  destruct (list_eq_dec ascii_dec name (B "UUID")) as [->|N].
  - rewrite (find_rev_only _ (udev_var (number u) (B "ID_FS_UUID_ENC")) r); [reflexivity| |intros p I E; exact (proj2 (U p I E))].
    apply in_map_iff. exists (NS_UDEV, B "ID_FS_UUID_ENC", firstn 224 (l_encode l value (l_safe l value (NUL :: tl junk))), 0%N). split; [cbn [entry]; rewrite udev_record; reflexivity|]. apply in_or_app. right. unfold special. apply in_or_app. right. apply in_or_app. left.
    rewrite key_eqb_refl. left. reflexivity.
  - rewrite find_rev_none; [reflexivity|]. intros p I E. apply N. exact (proj1 (U p I E)).
Qed.
Lemma step_other l t u name value junk d d1 x : sets (rev (map (entry u) (items l t name value junk))) d d1 -> x <> next_key u -> (forall k, blkid_variable k -> x <> udev_var (number u) k) -> recs d1 x = recs d x.
Proof.
  intros S N1 N2. rewrite (S _), find_rev_none; [reflexivity|]. intros p I E. apply in_map_iff in I as (i & <- & I). apply in_items in I.
  destruct I as [(s' & h' & k' & V' & -> & ->)|[(m & _ & _ & ->)|[(A & ->)|(q & -> & R1 & R2 & ->)]]]; cbn [entry fst] in E; try rewrite udev_record in E; try rewrite next_record in E; symmetry in E; revert E.
  - apply N2. left. exists s', h', k'. auto.
  - exact N1.
  - apply N2. right. left. reflexivity.
  - apply N2. right. right. eexists. reflexivity.
Qed.
