From Verif Require Import Base Tok_Model UtilStr_Spec BaseUtil_Model UbrDb_Model UbrKey_Spec UbrRec_Model UbrRec_Proofs UbrMsg_Model UbrMsg_Spec UbrMsg_Proofs UbrPerm_Spec Ifc_Model Ifc_Spec Ifc_Proofs
  UbrSync_Model UbrSync_Spec UbrUdev_Spec UbrUdev_Proofs Usid_Model Usid_Spec.
Local Open Scope nat_scope.

Lemma print_ok ps : forall n, Forall no_nul ps -> length (as_strings ps) <= n -> print_from n (as_strings ps) = Ok (as_lines ps).
Proof.
  induction ps as [|p ps IH]; intros n F L; [destruct n; reflexivity|]. unfold as_strings, as_lines in *. cbn [map List.concat] in *. rewrite !app_length in L. cbn [length] in L.
  destruct n as [|n]; [lia|]. rewrite <- app_assoc. cbn [app]. unfold print_from; fold print_from. rewrite string_ok by exact (Forall_inv F). cbn [obind].
  assert (E : skipn (length p + 1) (p ++ NUL :: List.concat (map (fun p => p ++ [NUL]) ps)) = List.concat (map (fun p => p ++ [NUL]) ps)).
  { change (p ++ NUL :: ?t) with (p ++ [NUL] ++ t). rewrite app_assoc. apply skipn_app_len. rewrite app_length. reflexivity. }
  rewrite E, (IH n (Forall_inv_tail F)) by lia. cbn [obind]. rewrite <- app_assoc. destruct p; reflexivity.
Qed.
Lemma strlen_none d : ~ In NUL d -> strlen d = None.
Proof. induction d as [|c d IH]; intros H; [reflexivity|]. cbn [strlen]. destruct (Ascii.eqb_spec c NUL) as [->|_]; [elim H; left; reflexivity|]. rewrite IH; [reflexivity|]. intros I. apply H. right. exact I. Qed.
Lemma print_ub ps : forall n t, Forall no_nul ps -> t <> [] -> no_nul t -> length (as_strings ps ++ t) <= n -> print_from n (as_strings ps ++ t) = UB.
Proof.
  induction ps as [|p ps IH]; intros n t F Nt N L.
  - cbn [as_strings map List.concat app] in *. destruct n as [|n]; [destruct t; [contradiction|cbn in L; lia]|]. destruct t as [|c t]; [contradiction|]. unfold print_from; fold print_from.
    unfold string_at. rewrite strlen_none by exact N. reflexivity.
  - unfold as_strings in *. cbn [map List.concat] in *. rewrite <- !app_assoc in *. rewrite !app_length in L. cbn [length app] in L. destruct n as [|n]; [lia|]. cbn [app].
    assert (X : forall z, p ++ NUL :: z <> []) by (intros z; destruct p; discriminate). unfold print_from; fold print_from. destruct (p ++ NUL :: _) eqn:Ep; [elim (X _ Ep)|]. rewrite <- Ep. clear Ep.
    rewrite string_ok by exact (Forall_inv F). cbn [obind].
    assert (E : skipn (length p + 1) (p ++ NUL :: List.concat (map (fun p => p ++ [NUL]) ps) ++ t) = List.concat (map (fun p => p ++ [NUL]) ps) ++ t).
    { change (p ++ NUL :: ?t) with (p ++ [NUL] ++ t). rewrite app_assoc. apply skipn_app_len. rewrite app_length. reflexivity. }
    rewrite E, (IH n t (Forall_inv_tail F) Nt N) by (rewrite app_length; cbn [length] in *; lia). reflexivity.
Qed.
Lemma reply_parts s p body g : reply s p body g -> exists l, g = inl l /\ rsl_status (Some l) = Ok (0%Z, s) /\ rsl_protocol (Some l) = Ok (0%Z, p)
  /\ rsl_data (Some l) = Ok (if N.odd s then None else match body with [] => None | _ => Some body end).
Proof.
  intros (msg & H & Hp & Hs & ->). destruct (result_lemma 5 msg [] s p 4 0 body H Hp ltac:(lia) Hs ltac:(lia)) as (l & E & A). unfold req_result in E.
  destruct (header_parts msg s p 4 0 body H Hp ltac:(lia) Hs) as (A1 & _). rewrite A1 in E. cbn [Nat.eqb CMD_DBDUMP] in E. injection E as <-. exists (Rsl msg None). split; [reflexivity|exact A].
Qed.
Lemma seq_lemma fs n : (forall x, In x fs -> no_eq (fst x)) -> env_number fs (B "SEQNUM") n -> (n < 2 ^ 64)%N -> env_seqnum (environment fs) = (0%Z, Some n).
Proof.
  intros G (s & F & Ns & D & E) L. unfold env_seqnum. rewrite getenv_lemma; [|cbv; intuition discriminate|exact G]. rewrite F, <- E. change (2 ^ 64)%N with 18446744073709551616%N in *. apply env_in; [exact Ns|exact D|lia|lia].
Qed.
Lemma asked_lemma fs n a b daemon g : uevent_env fs n a b -> (forall msg, scan_text fs n a b msg -> daemon msg = g) -> ifc_request (environment fs) (plain_req CMD_SCAN n no_checkpoint) daemon = g.
Proof.
  intros (G & _ & _ & Ma & Mi & La & Lb) H. unfold ifc_request. destruct (scan_message fs (plain_req CMD_SCAN n no_checkpoint) a b) as (msg & -> & T); [intros R; discriminate R|reflexivity|exact G|exact Ma|exact Mi|exact La|exact Lb|].
  apply H. exact T.
Qed.
Lemma scan_is own env args daemon : usid env own (B "scan" :: args) daemon = let! (out, r) := cmd_scan env daemon in Ok (out, negb (r <? 0)%Z).
Proof. unfold usid. replace (cmd_name_to_type (Some (B "scan"))) with (Ok 5) by (vm_compute; reflexivity). reflexivity. Qed.
Lemma scan_run fs n a b own args daemon g : uevent_env fs n a b -> (forall msg, scan_text fs n a b msg -> daemon msg = g) -> usid (environment fs) own (B "scan" :: args) daemon =
  let! st := get_ubr_status g in
  let! (out, r) := match g with inr r => Ok ([], match st with ST_INACTIVE => 0%Z | _ => r end) | inl l => print_env_from_rsl l end in
  Ok (out ++ status_line st, negb (r <? 0)%Z).
Proof.
  intros U H. rewrite scan_is. unfold cmd_scan, cmd_print_env. pose proof U as (G & Sq & L & _). rewrite (seq_lemma fs n G Sq L). rewrite (asked_lemma fs n a b daemon g U H).
  destruct (get_ubr_status g) as [st|]; [|reflexivity]. cbn [obind]. destruct g as [l|r]; [|reflexivity]. destruct (print_env_from_rsl l) as [(o & r)|]; reflexivity.
Qed.
Lemma prints_lemma fs n a b own args daemon s p g ps : uevent_env fs n a b -> (forall msg, scan_text fs n a b msg -> daemon msg = g) -> reply s p (as_strings ps) g -> N.odd s = false -> ps <> [] -> Forall no_nul ps ->
  usid (environment fs) own (B "scan" :: args) daemon = Ok (as_lines ps ++ says (if p =? 2 then "active" else "incompatible"), true).
Proof.
  intros U H R Ev Ne F. rewrite (scan_run fs n a b own args daemon g U H). destruct (reply_parts _ _ _ _ R) as (l & -> & A1 & A2 & A3). rewrite Ev in A3.
  assert (A3' : rsl_data (Some l) = Ok (Some (as_strings ps))) by (rewrite A3; destruct ps as [|[|c q] ps]; [contradiction|reflexivity|reflexivity]).
  unfold get_ubr_status. rewrite A3', A2. cbn [obind]. change PROTOCOL with 2. unfold print_env_from_rsl. rewrite A3'. cbn [obind]. rewrite print_ok by (exact F || lia). cbn [obind]. destruct (p =? 2); reflexivity.
Qed.
Lemma unended_lemma fs n a b own args daemon s p g ps t : uevent_env fs n a b -> (forall msg, scan_text fs n a b msg -> daemon msg = g) -> reply s p (as_strings ps ++ t) g -> N.odd s = false -> Forall no_nul ps -> t <> [] -> no_nul t ->
  usid (environment fs) own (B "scan" :: args) daemon = UB.
Proof.
  intros U H R Ev F Nt N. rewrite (scan_run fs n a b own args daemon g U H). destruct (reply_parts _ _ _ _ R) as (l & -> & A1 & A2 & A3). rewrite Ev in A3.
  assert (A3' : rsl_data (Some l) = Ok (Some (as_strings ps ++ t))). { rewrite A3. destruct (as_strings ps ++ t) eqn:E; [|reflexivity]. apply app_eq_nil in E as (_ & E). contradiction. }
  unfold get_ubr_status. rewrite A3', A2. cbn [obind]. unfold print_env_from_rsl. rewrite A3'. cbn [obind]. rewrite print_ub by (exact F || exact Nt || exact N || lia). reflexivity.
Qed.
Lemma none_lemma fs n a b own args daemon s p g : uevent_env fs n a b -> (forall msg, scan_text fs n a b msg -> daemon msg = g) -> reply s p [] g -> N.odd s = false ->
  usid (environment fs) own (B "scan" :: args) daemon = Ok (says "incompatible", true).
Proof.
  intros U H R Ev. rewrite (scan_run fs n a b own args daemon g U H). destruct (reply_parts _ _ _ _ R) as (l & -> & A1 & A2 & A3). rewrite Ev in A3.
  unfold get_ubr_status. rewrite A3. cbn [obind]. unfold print_env_from_rsl. rewrite A3, A1. cbn [obind]. rewrite Ev. reflexivity.
Qed.
Lemma failed_lemma fs n a b own args daemon s p body g : uevent_env fs n a b -> (forall msg, scan_text fs n a b msg -> daemon msg = g) -> reply s p body g -> N.odd s = true ->
  usid (environment fs) own (B "scan" :: args) daemon = Ok (says "incompatible", false).
Proof.
  intros U H R Od. rewrite (scan_run fs n a b own args daemon g U H). destruct (reply_parts _ _ _ _ R) as (l & -> & A1 & A2 & A3). rewrite Od in A3.
  unfold get_ubr_status. rewrite A3. cbn [obind]. unfold print_env_from_rsl. rewrite A3, A1. cbn [obind]. rewrite Od. reflexivity.
Qed.
Lemma no_answer_lemma fs n a b own args daemon r : uevent_env fs n a b -> (forall msg, scan_text fs n a b msg -> daemon msg = inr r) -> (r < 0)%Z ->
  usid (environment fs) own (B "scan" :: args) daemon = Ok (says (if (r =? -111)%Z then "inactive" else if (r =? - EBADMSG)%Z then "incompatible" else "error"), (r =? -111)%Z).
Proof.
  intros U H L. rewrite (scan_run fs n a b own args daemon _ U H). unfold get_ubr_status. cbn [obind]. change (- ECONNREFUSED)%Z with (-111)%Z.
  destruct (Z.eqb_spec r (-111)) as [->|Ne]; [reflexivity|]. destruct (r =? - EBADMSG)%Z; cbn [obind]; replace (r <? 0)%Z with true by lia; reflexivity.
Qed.
Lemma no_seqnum_lemma fs own args daemon : (forall x, In x fs -> no_eq (fst x)) -> first_value fs (B "SEQNUM") = None -> usid (environment fs) own (B "scan" :: args) daemon = Ok (says "error", false).
Proof.
  intros G F. rewrite scan_is. unfold cmd_scan, cmd_print_env, env_seqnum. rewrite getenv_lemma; [|cbv; intuition discriminate|exact G]. rewrite F. reflexivity.
Qed.
Lemma split_lf : forall a b, Forall (fun x => ~ In LF x) a -> Forall (fun x => ~ In LF x) b -> as_lines a = as_lines b -> a = b.
Proof.
  assert (Cut : forall x y r t, ~ In LF x -> ~ In LF y -> (x ++ [LF]) ++ r = (y ++ [LF]) ++ t -> x = y /\ r = t).
  { induction x as [|c x IH]; intros [|e y] r t Nx Ny E; cbn [app] in E.
    - injection E as ->. auto.
    - injection E as <- _. exfalso. apply Ny. left. reflexivity.
    - injection E as -> _. exfalso. apply Nx. left. reflexivity.
    - injection E as <- E. destruct (IH y r t) as (-> & ->); [intros I; apply Nx; right; exact I|intros I; apply Ny; right; exact I|exact E|auto]. }
  unfold as_lines. induction a as [|x a IH]; intros [|y b] Fa Fb E; [reflexivity|cbn in E; destruct y; discriminate|cbn in E; destruct x; discriminate|].
  cbn [map List.concat] in E. destruct (Cut x y _ _ (Forall_inv Fa) (Forall_inv Fb) E) as (-> & E'). f_equal. apply IH; [exact (Forall_inv_tail Fa)|exact (Forall_inv_tail Fb)|exact E'].
Qed.
Lemma tail_inj (a b t : bytes) : a ++ t = b ++ t -> a = b.
Proof. apply app_inv_tail. Qed.
Lemma from_database vec d keys lines l d' fs n a b own args daemon g : index_list d keys -> Forall no_nul keys -> export vec keys d = Ok (Some (lines, l, d')) -> lines <> [] ->
  uevent_env fs n a b -> (forall msg, scan_text fs n a b msg -> daemon msg = g) -> reply 0 2 (List.concat lines) g ->
  exists ps, lines = map (fun p => p ++ [NUL]) ps /\ usid (environment fs) own (B "scan" :: args) daemon = Ok (as_lines ps ++ says "active", true).
Proof.
  intros Il Nk E Ne U H R. pose proof (response_lemma vec d keys lines l d' Il E) as Lo. destruct (lines_nul _ _ _ Nk Lo) as (ps & -> & F). exists ps. split; [reflexivity|].
  apply (prints_lemma fs n a b own args daemon 0 2 g ps U H R eq_refl); [intros ->; apply Ne; reflexivity|exact F].
Qed.
Lemma active_lemma fs n own args daemon : (forall x, In x fs -> no_eq (fst x)) -> env_number fs (B "SEQNUM") n -> (n < 2 ^ 64)%N ->
  (forall msg, header_of msg n 2 6 2 [] -> daemon msg = inr (-111)%Z) -> usid (environment fs) own (B "active" :: args) daemon = Ok (says "inactive", false).
Proof.
  intros G Sq L H. unfold usid. replace (cmd_name_to_type (Some (B "active"))) with (Ok 2) by (vm_compute; reflexivity). cbn [obind]. change (2 =? CMD_ACTIVE) with true. cbv iota.
  unfold cmd_active. rewrite (seq_lemma fs n G Sq L). cbv iota zeta. unfold ifc_request. destruct (req_message (environment fs) (plain_req CMD_VERSION n no_checkpoint)) as [msg|] eqn:E; [|discriminate E].
  destruct (request_lemma _ (plain_req CMD_VERSION n no_checkpoint) msg ltac:(cbv; lia) E) as (body & Hd & Z). rewrite (H msg); [reflexivity|]. rewrite Z in Hd; [exact Hd|intros X; discriminate X|intros [X|X]; discriminate X].
Qed.
Lemma version_lemma fs n own args daemon s g t rest : (forall x, In x fs -> no_eq (fst x)) -> env_number fs (B "SEQNUM") n -> (n < 2 ^ 64)%N ->
  (forall msg, header_of msg n 2 6 2 [] -> daemon msg = g) -> reply s 2 (t ++ NUL :: rest) g -> N.odd s = false -> no_nul t ->
  usid (environment fs) own (B "version" :: args) daemon = Ok (own ++ t ++ says "active", true) /\ usid (environment fs) own (B "active" :: args) daemon = Ok (says "active", true).
Proof.
  intros G Sq L H R Ev N. destruct (reply_parts _ _ _ _ R) as (l & -> & A1 & A2 & A3). rewrite Ev in A3.
  assert (A3' : rsl_data (Some l) = Ok (Some (t ++ NUL :: rest))) by (rewrite A3; destruct t; reflexivity).
  assert (Q : ifc_request (environment fs) (plain_req CMD_VERSION n no_checkpoint) daemon = inl l).
  { unfold ifc_request. destruct (req_message (environment fs) (plain_req CMD_VERSION n no_checkpoint)) as [msg|] eqn:E; [|discriminate E].
    destruct (request_lemma _ (plain_req CMD_VERSION n no_checkpoint) msg ltac:(cbv; lia) E) as (body & Hd & Z). apply H. rewrite Z in Hd; [exact Hd|intros X; discriminate X|intros [X|X]; discriminate X]. }
  split; unfold usid.
  - replace (cmd_name_to_type (Some (B "version"))) with (Ok 6) by (vm_compute; reflexivity). cbn [obind]. change (6 =? CMD_ACTIVE) with false. change (6 =? CMD_CHECKPOINT) with false. change (6 =? CMD_SCAN) with false. change (6 =? CMD_VERSION) with true. cbv iota.
    unfold cmd_version. rewrite (seq_lemma fs n G Sq L). cbv iota zeta. rewrite Q. unfold get_ubr_status. rewrite A3', A2. cbn [obind]. rewrite string_ok by exact N. reflexivity.
  - replace (cmd_name_to_type (Some (B "active"))) with (Ok 2) by (vm_compute; reflexivity). cbn [obind]. change (2 =? CMD_ACTIVE) with true. cbv iota.
    unfold cmd_active. rewrite (seq_lemma fs n G Sq L). cbv iota zeta. rewrite Q. unfold get_ubr_status. rewrite A3', A2. reflexivity.
Qed.
Lemma checkpoint_lemma fs n a b own name key keys daemon s p g : uevent_env fs n a b -> (forall k, In k (key :: keys) -> no_eq k) ->
  (forall msg body, header_of msg n 2 3 2 (le 8 (makedev a b) ++ name ++ NUL :: body) -> daemon msg = g) -> reply s p [] g -> N.odd s = false ->
  usid (environment fs) own (B "checkpoint" :: name :: key :: keys) daemon = Ok (says "incompatible", true).
Proof.
  intros (G & Sq & L & Ma & Mi & La & Lb) Gk H R Ev. unfold usid. replace (cmd_name_to_type (Some (B "checkpoint"))) with (Ok 3) by (vm_compute; reflexivity). cbn [obind]. change (3 =? CMD_ACTIVE) with false.
  change (3 =? CMD_CHECKPOINT) with true. cbv iota. unfold cmd_checkpoint, cmd_print_env. rewrite (seq_lemma fs n G Sq L). cbv iota zeta.
  assert (Q : ifc_request (environment fs) (plain_req CMD_CHECKPOINT n (Checkpoint (Some name) (Some (key :: keys)) (length (key :: keys)))) daemon = g).
  { unfold ifc_request. destruct (check_message fs (plain_req CMD_CHECKPOINT n (Checkpoint (Some name) (Some (key :: keys)) (length (key :: keys)))) name (key :: keys) a b) as (msg & -> & T);
      [intros X; discriminate X|reflexivity|reflexivity|exact G|exact Gk|exact Ma|exact Mi|exact La|exact Lb|]. exact (H msg _ T). }
  rewrite Q. destruct (reply_parts _ _ _ _ R) as (l & -> & A1 & A2 & A3). rewrite Ev in A3.
  unfold get_ubr_status. rewrite A3. cbn [obind]. unfold print_env_from_rsl. rewrite A3, A1. cbn [obind]. rewrite Ev. reflexivity.
Qed.
Lemma ambiguous_lemma fs n a b own args : uevent_env fs n a b -> exists ps qs d1 d2 g1 g2,
  ps <> qs /\ Forall no_nul ps /\ Forall no_nul qs /\ (forall msg, scan_text fs n a b msg -> d1 msg = g1) /\ (forall msg, scan_text fs n a b msg -> d2 msg = g2) /\ reply 0 2 (as_strings ps) g1 /\ reply 0 2 (as_strings qs) g2
  /\ usid (environment fs) own (B "scan" :: args) d1 = usid (environment fs) own (B "scan" :: args) d2.
Proof.
  intros U. set (ps := [B "A=1" ++ LF :: B "ID_FS_TYPE=xfs"]). set (qs := [B "A=1"; B "ID_FS_TYPE=xfs"]). set (m := fun body => (le 8 0 ++ ascii_of_nat 2 :: ascii_of_nat 4 :: le 2 0 ++ body)).
  assert (Fp : Forall no_nul ps) by (repeat constructor; intros H; cbn in H; decompose [or] H; try discriminate; contradiction).
  assert (Fq : Forall no_nul qs) by (repeat constructor; intros H; cbn in H; decompose [or] H; try discriminate; contradiction).
  assert (R : forall body, reply 0 2 body (inl (Rsl (m body) None))) by (intros body; exists (m body); split; [reflexivity|]; split; [lia|]; split; [lia|reflexivity]).
  exists ps, qs, (fun _ => inl (Rsl (m (as_strings ps)) None)), (fun _ => inl (Rsl (m (as_strings qs)) None)), (inl (Rsl (m (as_strings ps)) None)), (inl (Rsl (m (as_strings qs)) None)).
  repeat (split; [solve [discriminate | exact Fp | exact Fq | intros; reflexivity | apply R]|]).
  rewrite (prints_lemma fs n a b own args _ 0 2 _ ps U (fun _ _ => eq_refl) (R _) eq_refl ltac:(discriminate) Fp).
  rewrite (prints_lemma fs n a b own args _ 0 2 _ qs U (fun _ _ => eq_refl) (R _) eq_refl ltac:(discriminate) Fq). reflexivity.
Qed.
Lemma unambiguous_lemma fs n a b own args d1 d2 g1 g2 ps qs : uevent_env fs n a b -> (forall msg, scan_text fs n a b msg -> d1 msg = g1) -> (forall msg, scan_text fs n a b msg -> d2 msg = g2) ->
  reply 0 2 (as_strings ps) g1 -> reply 0 2 (as_strings qs) g2 -> ps <> [] -> qs <> [] -> Forall no_nul ps -> Forall no_nul qs -> Forall (fun x => ~ In LF x) ps -> Forall (fun x => ~ In LF x) qs ->
  usid (environment fs) own (B "scan" :: args) d1 = usid (environment fs) own (B "scan" :: args) d2 -> ps = qs.
Proof.
  intros U H1 H2 R1 R2 N1 N2 F1 F2 L1 L2 E. rewrite (prints_lemma fs n a b own args d1 0 2 g1 ps U H1 R1 eq_refl N1 F1), (prints_lemma fs n a b own args d2 0 2 g2 qs U H2 R2 eq_refl N2 F2) in E. injection E as E.
  apply app_inv_tail in E. apply split_lf; assumption.
Qed.
