From Verif Require Import Base Kvs_Model Tok_Model UtilStr_Model UtilStr_Spec UtilStr_Proofs UtilStr_Proofs2 BaseUtil_Model BaseUtil_Spec BaseUtil_Proofs UbrKey_Model UbrDb_Model UbrRec_Model UbrDelta_Model
  UbrMsg_Model UbrPerm_Spec UbrMsg_Spec UbrPerm_Proofs UbrDelta_Proofs UbrRec_Proofs.
Local Open Scope nat_scope.

(* C64 *)
Lemma request_header msg p c body : request msg p c body ->
  read_header msg = Ok (Header p c) /\ (length msg <? HEADER_SIZE) = false /\ skipn HEADER_SIZE msg = body.
Proof.
  intros (st & fl & Ls & Lf & Hp & Hc & ->).
  do 9 (destruct st as [|? st]; try discriminate Ls). do 3 (destruct fl as [|? fl]; try discriminate Lf).
  unfold read_header. cbn [app length Nat.ltb Nat.leb HEADER_SIZE nth skipn].
  rewrite !nat_ascii_embedding by assumption. repeat split; reflexivity.
Qed.
Lemma capable_root c : client_is_capable (Some 0%N) c = Ok true. Proof. reflexivity. Qed.
Lemma root_bit c : nth_error cmd_root_only c = Some true <-> root_command c.
Proof.
  split.
  - intros H. do 11 (destruct c as [|c]; [try discriminate H; cbn; tauto|]). rewrite (proj2 (nth_error_None _ _)) in H; [discriminate|cbn; lia].
  - intros H. unfold root_command in H. cbn in H. repeat (destruct H as [<-|H]; [reflexivity|]). destruct H.
Qed.
Lemma capable_cases uid c : c <= 10 -> exists b, client_is_capable uid c = Ok b /\ (b = true <-> uid = Some 0%N \/ ~ root_command c).
Proof.
  intros Hc. destruct (nth_error cmd_root_only c) as [b|] eqn:E.
  - assert (Hb : b = true <-> root_command c).
    { rewrite <- root_bit, E. split; [intros ->; reflexivity|intros H; injection H; auto]. }
    unfold client_is_capable. rewrite E. destruct uid as [[|p]|].
    + exists true. split; [reflexivity|]. tauto.
    + exists (negb b). split; [reflexivity|]. rewrite <- Hb. destruct b; cbn; split; intros H; try tauto; try discriminate; try (destruct H as [H|H]; [discriminate|congruence]); right; discriminate.
    + exists (negb b). split; [reflexivity|]. rewrite <- Hb. destruct b; cbn; split; intros H; try tauto; try discriminate; try (destruct H as [H|H]; [discriminate|congruence]); right; discriminate.
  - apply nth_error_None in E. cbn in E. lia.
Qed.
Lemma reg_ok c : c <= 10 -> exists r, get_cmd_reg c = Ok r /\ nth_error client_cmd_regs c = Some r.
Proof.
  intros Hc. unfold get_cmd_reg. destruct (nth_error client_cmd_regs c) as [r|] eqn:E; [exists r; split; reflexivity|].
  apply nth_error_None in E. cbn in E. lia.
Qed.
Lemma reg_out c : 10 < c -> get_cmd_reg c = UB.
Proof. intros Hc. unfold get_cmd_reg. rewrite (proj2 (nth_error_None _ _)); [reflexivity|cbn; lia]. Qed.

Lemma create_lemma d gen uid msg p c body : request msg p c body ->
  create_cmd d gen uid msg =
  if 10 <? c then UB
  else if match client_is_capable uid c with Ok b => negb b | UB => true end || negb (p =? 2) then Ok Refused
  else match nth_error client_cmd_regs c with
       | None => UB
       | Some r => if g_import r then match parse_udev_env d gen body with
                                      | Ok (d, u, x) => Ok (if (x <? 0)%Z then Refused else Created c r d u)
                                      | UB => UB
                                      end
                   else Ok (Created c r d (no_udev []))
       end.
Proof.
  intros H. destruct (request_header _ _ _ _ H) as (E & L & B). unfold create_cmd, check_msg. rewrite L, E, B.
  cbn [obind h_cmd h_prot]. unfold CMD_END, CMD_DEVICES. destruct (10 <? c) eqn:C.
  - apply Nat.ltb_lt in C. destruct (capable_cases uid CMD_UNKNOWN ltac:(cbv; lia)) as (b & Eb & Hb). rewrite Eb. cbn [obind].
    replace b with true by (symmetry; apply Hb; right; cbv; intuition discriminate).
    change (0 <? 0)%Z with false. cbv iota. rewrite (reg_out c C). reflexivity.
  - apply Nat.ltb_ge in C. destruct (capable_cases uid c C) as (b & Eb & Hb). rewrite Eb. cbn [obind].
    destruct b; cbn [negb orb].
    + change (0 <? 0)%Z with false. cbv iota. destruct (reg_ok c C) as (r & Er & En). rewrite Er, En. cbn [obind]. unfold PROTOCOL.
      destruct (p =? 2); cbn [negb]; [|reflexivity]. destruct (g_import r); [|reflexivity].
      destruct (parse_udev_env d gen body) as [((d', u), x)|]; reflexivity.
    + reflexivity.
Qed.
Lemma short_lemma d gen uid msg : length msg < 12 -> create_cmd d gen uid msg = Ok Refused /\ forall a w, reply_failure msg a w = UB.
Proof.
  intros L. assert (E : (length msg <? HEADER_SIZE) = true) by (apply Nat.ltb_lt; exact L).
  unfold create_cmd, check_msg, reply_failure, read_header. rewrite E. split; reflexivity.
Qed.
Lemma requests msg : 12 <= length msg -> exists p c body, request msg p c body.
Proof.
  intros L. do 12 (destruct msg as [|? msg]; [cbn in L; lia|]).
  exists (nat_of_ascii a7), (nat_of_ascii a8), msg. exists [a; a0; a1; a2; a3; a4; a5; a6], [a9; a10].
  split; [reflexivity|]. split; [reflexivity|]. split; [apply nat_ascii_bounded|]. split; [apply nat_ascii_bounded|].
  rewrite !ascii_nat_embedding. reflexivity.
Qed.
Lemma created_lemma d gen uid msg c r d' u : create_cmd d gen uid msg = Ok (Created c r d' u) ->
  exists body, request msg 2 c body /\ c <= 10 /\ (root_command c -> uid = Some 0%N) /\ nth_error client_cmd_regs c = Some r.
Proof.
  intros H. destruct (Nat.lt_ge_cases (length msg) 12) as [L|L].
  { rewrite (proj1 (short_lemma d gen uid msg L)) in H. discriminate. }
  destruct (requests msg L) as (p & c' & body & R). rewrite (create_lemma d gen uid msg p c' body R) in H.
  destruct (10 <? c') eqn:C; [discriminate|]. apply Nat.ltb_ge in C. destruct (capable_cases uid c' C) as (b & Eb & Hb). rewrite Eb in H.
  destruct b; [|discriminate]. cbn [negb orb] in H. destruct (p =? 2) eqn:P; [|discriminate]. apply Nat.eqb_eq in P. subst p. cbn [negb] in H.
  destruct (nth_error client_cmd_regs c') as [r'|] eqn:En; [|discriminate].
  assert (X : c' = c /\ r' = r).
  { destruct (g_import r'); [destruct (parse_udev_env d gen body) as [((d1, u1), x)|]; [destruct (x <? 0)%Z|]|]; try discriminate H; injection H as <- <- _ _; split; reflexivity. }
  destruct X as [-> ->]. exists body. split; [exact R|]. split; [exact C|]. split; [|exact En].
  intros Rc. destruct (proj1 Hb eq_refl); [assumption|contradiction].
Qed.
Lemma entry_lemma c r : nth_error client_cmd_regs c = Some r ->
  (0 < c -> g_name r = Some (B (nth c command_names ""%string))) /\ (c = 0 -> g_name r = None) /\ (g_import r = true <-> device_command c) /\ (g_exec r = true <-> has_action c).
Proof.
  intros H. do 11 (destruct c as [|c]; [cbn in H; injection H as <-; unfold device_command, has_action; cbn; intuition (try discriminate; try lia)|]).
  rewrite (proj2 (nth_error_None _ _)) in H; [discriminate|cbn; lia].
Qed.

(* C65 *)
Definition imp_rec (seq gen : N) (v : bytes) : rec := Rec seq (N.lor FL_RD_WR FL_SYNC_P) gen OWNER_CORE [v ++ [NUL]].
Lemma set_lemma d num seq gen k v : exists d',
  do_kv_set d (Ucmd (DevCtx (Some num) None) seq gen) OWNER_CORE None NS_UDEV k (Some (v ++ [NUL])) FL_RD_WR false = Ok (d', 0%Z, Some (imp_rec seq gen v))
  /\ recs d' = put (recs d) (property_key num k) (Some (imp_rec seq gen v)).
Proof.
  set (u := Ucmd (DevCtx (Some num) None) seq gen).
  pose proof (rec_key u OWNER_CORE NS_UDEV k) as K. cbn [api_dom] in K.
  change (record_key u OWNER_CORE NS_UDEV k) with (property_key num k) in K.
  unfold do_kv_set. change (ns_eqb NS_UDEV NS_UDEV && key_eqb OWNER_CORE OWNER_CORE) with true. cbv iota. change (0 <? 0)%Z with false. cbv iota zeta.
  change (ns_eqb NS_UDEV NS_UDEV) with true. cbv iota.
  change (has (N.lor FL_RD_WR FL_SYNC_P) FL_AR) with false. cbv iota. unfold kvs_set. rewrite K. unfold cb_write. cbn [r_owner].
  rewrite core_allowed. eexists. split; [reflexivity|]. rewrite index_recs. cbn [recs].
  reflexivity.
Qed.
Lemma index_field k v : no_eq k -> index EQUALS (k ++ "="%char :: v) = Some (length k).
Proof.
  unfold no_eq, EQUALS. induction k as [|c k IH]; intros H; cbn [app index length]; [reflexivity|].
  destruct (Ascii.eqb_spec c "="%char) as [->|]; [exfalso; apply H; left; reflexivity|]. rewrite IH; [reflexivity|].
  intros X. apply H. right. exact X.
Qed.
Lemma index_none s : no_eq s -> index EQUALS s = None.
Proof.
  unfold no_eq, EQUALS. induction s as [|c k IH]; intros H; cbn [index]; [reflexivity|].
  destruct (Ascii.eqb_spec c "="%char) as [->|]; [exfalso; apply H; left; reflexivity|]. rewrite IH; [reflexivity|].
  intros X. apply H. right. exact X.
Qed.
Lemma bad_lemma d gen u s : bad_string s -> device_add_field d gen u s = Ok (d, u, (-1)%Z).
Proof.
  intros (_ & [H|(k & H & ->)]); unfold device_add_field.
  - rewrite index_none by exact H. reflexivity.
  - change (B "=") with ["="%char]. rewrite index_field by exact H.
    rewrite Nat.add_1_r, <- Nat.add_1_r. rewrite <- (app_nil_r (k ++ ["="%char])) at 1. rewrite skipn_app.
    rewrite skipn_all2 by (rewrite app_length; cbn; lia). rewrite app_nil_l, skipn_nil. reflexivity.
Qed.
Lemma split_field (k v : bytes) : firstn (length k) (k ++ "="%char :: v) = k /\ skipn (length k + 1) (k ++ "="%char :: v) = v.
Proof.
  split; [rewrite firstn_app, Nat.sub_diag, firstn_all; apply app_nil_r|].
  rewrite Nat.add_comm. induction k; [reflexivity|exact IHk].
Qed.

Lemma slash_base v i : rstr v (B "/") = Some i -> base_name v (skipn (i + 1) v).
Proof.
  intros H. destruct (rstr_lemma v (B "/")) as (R & _). apply R in H as (Hi & (a & b & E & La) & Hl). subst i. subst v.
  change (B "/") with ["/"%char] in *. destruct (split_field a b) as (_ & _).
  assert (Sk : skipn (length a + 1) (a ++ ["/"%char] ++ b) = b).
  { rewrite Nat.add_comm. clear. induction a; [reflexivity|exact IHa]. }
  rewrite Sk. split; [|exists a; reflexivity].
  intros X. apply in_split in X as (b1 & b2 & ->).
  assert (O : occurs (a ++ ["/"%char] ++ b1 ++ "/"%char :: b2) ["/"%char] (length (a ++ "/"%char :: b1))).
  { exists (a ++ "/"%char :: b1), b2. split; [rewrite <- app_assoc; reflexivity|reflexivity]. }
  apply Hl in O. rewrite app_length in O. cbn [length] in O. lia.
Qed.
Lemma has_dir_rstr v : has_dir v <-> rstr v (B "/") <> None.
Proof.
  destruct (rstr_lemma v (B "/")) as (_ & R). split.
  - intros (a & b & Na & ->) X. apply (proj1 R) with (j := length a) in X.
    + destruct a; [congruence|discriminate].
    + exists a, b. split; reflexivity.
  - intros H. destruct (rstr v (B "/")) as [i|] eqn:E; [|congruence]. destruct (rstr_lemma v (B "/")) as (R' & _).
    apply R' in E as (Hi & (a & b & E & La) & _). exists a, b. split; [|exact E]. destruct a; [cbn in La; lia|discriminate].
Qed.

(* what a string changes in what is known of the device *)
Definition or_opt {A} (a b : option A) : option A := match a with Some _ => a | None => b end.
Definition notes (u u' : udev) (look : bytes -> option bytes) : Prop :=
  v_num u' = v_num u /\ v_dsq u' = v_dsq u /\
  v_action u' = or_opt (look (B "ACTION")) (v_action u) /\ v_path u' = or_opt (look (B "DEVPATH")) (v_path u)
  /\ v_synth u' = or_opt (look (B "SYNTH_UUID")) (v_synth u)
  /\ match look (B "DEVPATH") with Some p => exists b, base_name p b /\ v_name u' = Some b | None => v_name u' = v_name u end
  /\ v_part u' = match look (B "DEVTYPE") with Some t => strcaseeq t (B "partition") | None => v_part u end
  /\ v_seqnum u' = match look (B "SEQNUM") with Some t => ull_of t | None => v_seqnum u end
  /\ v_diskseq u' = match look (B "DISKSEQ") with Some t => ull_of t | None => v_diskseq u end
  /\ v_partn u' = match look (B "PARTN") with Some t => ull_of t | None => v_partn u end.
Definition only (k v : bytes) : bytes -> option bytes := fun x => if list_eq_dec ascii_dec k x then Some v else None.
Ltac decide_key k :=
  match goal with
  | |- context [key_eqb k (B ?s)] =>
      let E := fresh "E" in destruct (key_eqb_spec k (B s)) as [E|E]
  end.
Lemma field_lemma d gen u k v : good_field (k, v) -> exists d' u',
  device_add_field d gen u (field_text (k, v)) = Ok (d', u', 0%Z) /\ recs d' = put (recs d) (property_key (v_num u) k) (Some (imp_rec (v_seqnum u) gen v))
  /\ notes u u' (only k v).
Proof.
  intros (Hk & _ & _ & Hv & Hd). cbn [fst snd] in *. unfold device_add_field, field_text. cbn [fst snd].
  rewrite index_field by exact Hk. destruct (split_field k v) as (-> & ->).
  destruct v as [|c v0] eqn:Ev; [congruence|]. rewrite <- Ev in *. replace (length v =? 0) with false by (subst v; reflexivity).
  destruct (set_lemma d (v_num u) (v_seqnum u) gen k v) as (d' & -> & Rd). cbn [obind]. change (0 <? 0)%Z with false. cbv iota. cbv zeta.
  clear c v0 Ev.
  assert (N : forall s : string, k <> B s -> only k v (B s) = None) by (intros s E; unfold only; destruct (list_eq_dec _ _ _); [congruence|reflexivity]).
  assert (Y : forall s : string, k = B s -> only k v (B s) = Some v) by (intros s E; unfold only; destruct (list_eq_dec _ _ _); [reflexivity|congruence]).
  decide_key k; [|decide_key k; [|decide_key k; [|decide_key k; [|decide_key k; [|decide_key k; [|decide_key k]]]]]].
  2: { destruct (rstr v (B "/")) as [p|] eqn:P; [|exfalso; apply (proj1 (has_dir_rstr v) (Hd E0)); exact P].
       eexists _, _. split; [reflexivity|]. split; [exact Rd|]. unfold notes. cbn [v_num v_dsq v_action v_path v_synth v_name v_part v_seqnum v_diskseq v_partn].
       rewrite (Y _ E0), !N by (rewrite E0; discriminate). cbn [or_opt]. repeat (split; [reflexivity|]).
       split; [eexists; split; [apply slash_base; exact P|reflexivity]|]. repeat (split; [reflexivity|]). reflexivity. }
  all: eexists _, _; (split; [reflexivity|]); (split; [exact Rd|]); unfold notes;
    cbn [v_num v_dsq v_action v_path v_synth v_name v_part v_seqnum v_diskseq v_partn];
    try match goal with E : @eq (list ascii) _ (B _) |- _ => rewrite (Y _ E) end; rewrite !N by (first [assumption | match goal with E : @eq (list ascii) _ (B _) |- _ => rewrite E; discriminate end]);
    cbn [or_opt]; repeat (split; [reflexivity|]); reflexivity.
Qed.
Lemma property_inj num k k' : property_key num k = property_key num k' -> k = k'.
Proof. unfold property_key. intros H. apply app_inv_head in H. apply app_inv_head in H. apply app_inv_head in H. exact H. Qed.
Lemma notes_trans u u1 u2 l1 l2 : notes u u1 l1 -> notes u1 u2 l2 -> notes u u2 (fun k => or_opt (l2 k) (l1 k)).
Proof.
  intros (A1 & A2 & A3 & A4 & A5 & A6 & A7 & A8 & A9 & A10) (B1 & B2 & B3 & B4 & B5 & B6 & B7 & B8 & B9 & B10).
  unfold notes. rewrite B1, A1, B2, A2, B3, A3, B4, A4, B5, A5, B7, A7, B8, A8, B9, A9, B10, A10.
  do 2 (split; [reflexivity|]).
  split; [destruct (l2 (B "ACTION")); reflexivity|]. split; [destruct (l2 (B "DEVPATH")); reflexivity|].
  split; [destruct (l2 (B "SYNTH_UUID")); reflexivity|].
  split; [destruct (l2 (B "DEVPATH")); [exact B6|]; cbn [or_opt]; rewrite B6; exact A6|].
  split; [destruct (l2 (B "DEVTYPE")); reflexivity|]. split; [destruct (l2 (B "SEQNUM")); reflexivity|].
  split; [destruct (l2 (B "DISKSEQ")); reflexivity|]. destruct (l2 (B "PARTN")); reflexivity.
Qed.
Lemma notes_ext u u' l l' : (forall k, l k = l' k) -> notes u u' l -> notes u u' l'.
Proof. intros E. unfold notes. rewrite !E. exact (fun x => x). Qed.
Lemma last_cons k v fs x : last_value ((k, v) :: fs) x = or_opt (last_value fs x) (only k v x).
Proof. cbn [last_value]. unfold only. destruct (last_value fs x); reflexivity. Qed.
Lemma strlen_text s r : no_nul s -> strlen (s ++ NUL :: r) = Some (length s).
Proof.
  unfold no_nul. induction s as [|c s IH]; intros H; cbn [app strlen length]; [rewrite Ascii.eqb_refl; reflexivity|].
  destruct (Ascii.eqb_spec c NUL) as [->|]; [exfalso; apply H; left; reflexivity|]. rewrite IH; [reflexivity|]. intros X. apply H. right. exact X.
Qed.
Lemma split_text (s r : bytes) : firstn (length s) (s ++ NUL :: r) = s /\ skipn (length s + 1) (s ++ NUL :: r) = r.
Proof.
  split; [rewrite firstn_app, Nat.sub_diag, firstn_all; apply app_nil_r|].
  rewrite Nat.add_comm. induction s; [reflexivity|exact IHs].
Qed.
Lemma field_step f d gen u s r : no_nul s -> parse_fields (S f) d gen u (s ++ NUL :: r) =
  match device_add_field d gen u s with Ok (d, u, x) => if (x <? 0)%Z then Ok (d, u, 1%Z) else parse_fields f d gen u r | UB => UB end.
Proof.
  intros H. destruct (s ++ NUL :: r) as [|c t] eqn:E; [destruct s; discriminate|].
  cbn [parse_fields]. rewrite <- E, strlen_text by exact H. destruct (split_text s r) as (-> & ->).
  destruct (device_add_field d gen u s) as [((d', u'), x)|]; reflexivity.
Qed.
Lemma flags_all b : In b [1; 2; 5; 6; 7; 8; 9; 10]%N -> N.testbit (N.lor FL_RD_WR FL_SYNC_P) b = true.
Proof. intros H. cbn [In] in H. repeat (destruct H as [<-|H]; [reflexivity|]). destruct H. Qed.
Lemma import_cons d d1 d2 num k v fs r : recs d1 = put (recs d) (property_key num k) (Some r) -> r_data r = [v ++ [NUL]] -> r_owner r = B "/" ->
  r_flags r = N.lor FL_RD_WR FL_SYNC_P -> imported d1 d2 num fs -> imported d d2 num ((k, v) :: fs).
Proof.
  intros E R1 R2 R3 (I1 & I2). split.
  - intros x w. rewrite last_cons. destruct (last_value fs x) as [y|] eqn:L.
    + cbn [or_opt]. intros X. injection X as <-. exact (I1 x y L).
    + cbn [or_opt]. unfold only. destruct (list_eq_dec ascii_dec k x) as [<-|]; [|discriminate]. intros X. injection X as <-.
      exists r. split.
      * rewrite I2; [rewrite E; apply put_same|]. intros k' v' L' X. apply property_inj in X as <-. congruence.
      * split; [exact R1|]. split; [exact R2|]. rewrite R3. exact flags_all.
  - intros x H. rewrite I2.
    + rewrite E. apply put_other. apply (H k (match last_value fs k with Some y => y | None => v end)). rewrite last_cons. unfold only.
      destruct (last_value fs k); cbn [or_opt]; [reflexivity|]. destruct (list_eq_dec ascii_dec k k); [reflexivity|congruence].
    + intros k' v' L. apply (H k' v'). rewrite last_cons, L. reflexivity.
Qed.
Lemma fields_lemma gen rest : forall fs d u f, (forall x, In x fs -> good_field x) -> exists d' u',
  parse_fields (length fs + f) d gen u (env_text fs ++ rest) = parse_fields f d' gen u' rest
  /\ imported d d' (v_num u) fs /\ notes u u' (last_value fs).
Proof.
  induction fs as [|(k, v) fs IH]; intros d u f G.
  - exists d, u. split; [reflexivity|]. split; [split; [discriminate|reflexivity]|].
    unfold notes. cbn [last_value or_opt]. repeat (split; [reflexivity|]). reflexivity.
  - assert (Gk : good_field (k, v)) by (apply G; left; reflexivity).
    destruct (field_lemma d gen u k v Gk) as (d1 & u1 & E1 & R1 & N1).
    destruct (IH d1 u1 f (fun x Hx => G x (or_intror Hx))) as (d2 & u2 & E2 & I2 & N2).
    exists d2, u2. split; [|split].
    + change (env_text ((k, v) :: fs)) with ((field_text (k, v) ++ [NUL]) ++ env_text fs). rewrite <- !app_assoc.
      cbn [length Nat.add]. change ([NUL] ++ env_text fs ++ rest) with (NUL :: env_text fs ++ rest). rewrite field_step.
      * rewrite E1. change (0 <? 0)%Z with false. cbv iota. exact E2.
      * destruct Gk as (_ & Nk & Nv & _). unfold field_text, no_nul in *. cbn [fst snd] in *. intros X.
        apply in_app_or in X as [X|[X|X]]; [exact (Nk X)|discriminate X|exact (Nv X)].
    + replace (v_num u1) with (v_num u) in I2 by (symmetry; apply N1).
      eapply import_cons; [exact R1|reflexivity|reflexivity|reflexivity|exact I2].
    + eapply notes_ext; [|exact (notes_trans _ _ _ _ _ N1 N2)]. intros x. symmetry. apply last_cons.
Qed.
Lemma env_len fs rest : length fs <= length (env_text fs ++ rest).
Proof.
  rewrite app_length. enough (length fs <= length (env_text fs)) by lia. induction fs as [|f fs IH]; [cbn; lia|].
  change (env_text (f :: fs)) with ((field_text f ++ [NUL]) ++ env_text fs). rewrite !app_length. cbn [length]. lia.
Qed.
Lemma lt_pow a b : (a < 2 ^ 31 -> b < 2 ^ 31 -> makedev a b < 2 ^ 64)%N.
Proof.
  unfold makedev. intros Ha Hb. pose proof (N.mod_upper_bound b 256 ltac:(discriminate)). pose proof (N.mod_upper_bound a 4096 ltac:(discriminate)).
  assert (b / 256 < 2 ^ 23)%N by (apply N.div_lt_upper_bound; lia). assert (a / 4096 < 2 ^ 19)%N by (apply N.div_lt_upper_bound; lia). lia.
Qed.
Lemma lor_add a b k : (a < 2 ^ k)%N -> N.lor a (N.shiftl b k) = (a + 2 ^ k * b)%N.
Proof.
  intros H. rewrite N.shiftl_mul_pow2, (N.mul_comm b). symmetry. rewrite N.add_comm, <- N.lxor_lor.
  - rewrite N.lxor_comm. apply N.add_nocarry_lxor. apply N.bits_inj_0. intros n. rewrite N.land_spec.
    destruct (N.lt_ge_cases n k) as [L|L].
    + rewrite (N.mul_comm (2 ^ k)), N.mul_pow2_bits_low by exact L. reflexivity.
    + destruct (N.eq_dec a 0) as [->|Na]; [rewrite N.bits_0, andb_false_r; reflexivity|].
      rewrite (N.bits_above_log2 a n), andb_false_r; [reflexivity|]. apply N.log2_lt_pow2 in H; lia.
  - apply N.bits_inj_0. intros n. rewrite N.land_spec.
    destruct (N.lt_ge_cases n k) as [L|L].
    + rewrite (N.mul_comm (2 ^ k)), N.mul_pow2_bits_low by exact L. apply andb_false_r.
    + destruct (N.eq_dec a 0) as [->|Na]; [rewrite N.bits_0; reflexivity|].
      rewrite (N.bits_above_log2 a n); [reflexivity|]. apply N.log2_lt_pow2 in H; lia.
Qed.
Lemma dev_lemma a b : (a < 2 ^ 31 -> b < 2 ^ 31 -> dev_major (makedev a b) = Z.of_N a /\ dev_minor (makedev a b) = Z.of_N b)%N.
Proof.
  intros Ha Hb.
  pose proof (N.mod_upper_bound b 256 ltac:(discriminate)) as B1. pose proof (N.mod_upper_bound a 4096 ltac:(discriminate)) as A1.
  pose proof (N.div_mod b 256 ltac:(discriminate)) as B2. pose proof (N.div_mod a 4096 ltac:(discriminate)) as A2.
  assert (B3 : (b / 256 < 2 ^ 23)%N) by (apply N.div_lt_upper_bound; lia). assert (A3 : (a / 4096 < 2 ^ 19)%N) by (apply N.div_lt_upper_bound; lia).
  unfold dev_major, dev_minor, makedev.
  remember (b mod 256)%N as b0. remember (b / 256)%N as b1. remember (a mod 4096)%N as a0. remember (a / 4096)%N as a1. clear Heqb0 Heqb1 Heqa0 Heqa1.
  set (n := (b0 + 256 * a0 + 2 ^ 20 * b1 + 2 ^ 44 * a1)%N).
  assert (D8 : (n / 2 ^ 8 = a0 + 2 ^ 12 * b1 + 2 ^ 36 * a1)%N) by (symmetry; apply (N.div_unique n (2 ^ 8) _ b0); [lia|unfold n; lia]).
  assert (M8 : (n mod 2 ^ 8 = b0)%N) by (symmetry; apply (N.mod_unique n (2 ^ 8) (a0 + 2 ^ 12 * b1 + 2 ^ 36 * a1)%N b0); [lia|unfold n; lia]).
  assert (D20 : (n / 2 ^ 20 = b1 + 2 ^ 24 * a1)%N) by (symmetry; apply (N.div_unique n (2 ^ 20) _ (b0 + 256 * a0)%N); [lia|unfold n; lia]).
  assert (D44 : (n / 2 ^ 44 = a1)%N) by (symmetry; apply (N.div_unique n (2 ^ 44) _ (b0 + 256 * a0 + 2 ^ 20 * b1)%N); [lia|unfold n; lia]).
  rewrite !N.shiftr_div_pow2, D8, M8, D20, D44.
  replace ((a0 + 2 ^ 12 * b1 + 2 ^ 36 * a1) mod 2 ^ 12)%N with a0 by (apply (N.mod_unique _ (2 ^ 12) (b1 + 2 ^ 24 * a1)%N a0); lia).
  replace ((b1 + 2 ^ 24 * a1) mod 2 ^ 24)%N with b1 by (apply (N.mod_unique _ (2 ^ 24) a1 b1); lia).
  rewrite !lor_add by lia.
  replace (a0 + 2 ^ 12 * a1)%N with a by lia. replace (b0 + 2 ^ 8 * b1)%N with b by lia.
  unfold to_int. rewrite !N.mod_small by lia. rewrite !(proj2 (N.ltb_lt _ _)) by assumption. split; reflexivity.
Qed.
Lemma num_lemma a b : (a < 2 ^ 31 -> b < 2 ^ 31 -> num_text a b (print_d (dev_major (makedev a b)) ++ "_"%char :: print_d (dev_minor (makedev a b))))%N.
Proof.
  intros Ha Hb. destruct (dev_lemma a b Ha Hb) as (-> & ->). eexists _, _. split; [apply print_decimal|]. split; [apply print_decimal|reflexivity].
Qed.
Lemma number_lemma s : s <> [] -> (forall c, In c s -> digit c) -> (dec_value s < 2 ^ 64)%N -> ull_of s = dec_value s.
Proof.
  intros H1 H2 H3. unfold ull_of. assert (T : strtoull s = (dec_value s, false, [])); [|rewrite T; reflexivity].
  apply strtoull_taken. right. exists [], [], s. split; [reflexivity|]. split; [intros c []|]. split; [split; assumption|]. split; [exact H3|].
  left. split; [left; reflexivity|reflexivity].
Qed.
Lemma caseeq_part t : strcaseeq t (B "partition") = true <-> map lower t = B "partition".
Proof. unfold strcaseeq. change (map lower (B "partition")) with (B "partition"). destruct (list_eq_dec _ _ _); split; intros; congruence. Qed.
Lemma device_lemma num fs u : notes (no_udev num) u (last_value fs) -> device_from fs u /\ v_num u = num /\ v_dsq u = None.
Proof.
  intros (A1 & A2 & A3 & A4 & A5 & A6 & A7 & A8 & A9 & A10). cbn [no_udev v_num v_dsq v_action v_path v_synth v_name v_part v_seqnum v_diskseq v_partn] in *.
  assert (O : forall A (o : option A), or_opt o None = o) by (intros A []; reflexivity). rewrite O in A3, A4, A5.
  split; [|split; assumption]. unfold device_from. split; [exact A3|]. split; [exact A4|]. split; [exact A5|]. split.
  - intros p E. rewrite E in A6. exact A6.
  - split.
    + rewrite A7. destruct (last_value fs (B "DEVTYPE")) as [t|].
      * rewrite caseeq_part. split; [intros E; exists t; split; [reflexivity|exact E]|intros (t' & Et & E); injection Et as <-; exact E].
      * split; [discriminate|intros (t & Et & _); discriminate].
    + rewrite A8, A9, A10. unfold number_from.
      split; [destruct (last_value fs (B "SEQNUM")); [apply number_lemma|reflexivity]|].
      split; [destruct (last_value fs (B "DISKSEQ")); [apply number_lemma|reflexivity]|].
      destruct (last_value fs (B "PARTN")); [apply number_lemma|reflexivity].
Qed.
Lemma device_dsq fs u x : device_from fs u -> device_from fs (Udev (v_num u) x (v_action u) (v_path u) (v_name u) (v_part u) (v_seqnum u) (v_diskseq u) (v_synth u) (v_partn u)).
Proof. exact (fun H => H). Qed.
(* the environment, up to the rest after well-formed strings *)
Lemma parse_lemma d gen a b fs rest : (a < 2 ^ 31)%N -> (b < 2 ^ 31)%N -> env_text fs ++ rest <> [] -> (forall x, In x fs -> good_field x) ->
  exists num d' u' f, num_text a b num /\ imported d d' num fs /\ device_from fs u' /\ v_num u' = num /\ v_dsq u' = None /\ length rest < f
   /\ parse_udev_env d gen (le 8 (makedev a b) ++ env_text fs ++ rest) =
      match parse_fields f d' gen u' rest with
      | Ok (d, u, r) => if negb (r =? 0)%Z then Ok (d, u, r)
        else Ok (d, Udev (v_num u) (Some (if v_part u then print_u (v_diskseq u) ++ B "-part" ++ print_u (v_partn u) else print_u (v_diskseq u))) (v_action u) (v_path u) (v_name u) (v_part u) (v_seqnum u) (v_diskseq u) (v_synth u) (v_partn u), 0%Z)
      | UB => UB
      end.
Proof.
  intros Ha Hb Ne G. set (num := print_d (dev_major (makedev a b)) ++ "_"%char :: print_d (dev_minor (makedev a b))).
  destruct (fields_lemma gen rest fs d (no_udev num) (length (le 8 (makedev a b) ++ env_text fs ++ rest) - length fs) G) as (d' & u' & E & I & N).
  exists num, d', u', (length (le 8 (makedev a b) ++ env_text fs ++ rest) - length fs).
  destruct (device_lemma num fs u' N) as (D1 & D2 & D3).
  pose proof (env_len fs rest) as L. pose proof (le_length 8 (makedev a b)) as L8.
  split; [apply num_lemma; assumption|]. split; [exact I|]. split; [exact D1|]. split; [exact D2|]. split; [exact D3|].
  assert (L2 : length fs + length rest <= length (env_text fs ++ rest)) by (pose proof (env_len fs []) as L1; rewrite app_nil_r in L1; rewrite app_length; lia).
  split; [rewrite (app_length (le 8 _)); lia|].
  unfold parse_udev_env. replace (length (le 8 (makedev a b) ++ env_text fs ++ rest) <=? 8) with false.
  - assert (F8 : firstn 8 (le 8 (makedev a b) ++ env_text fs ++ rest) = le 8 (makedev a b)).
    { rewrite firstn_app, L8, Nat.sub_diag, firstn_all2 by lia. apply app_nil_r. }
    assert (S8 : skipn 8 (le 8 (makedev a b) ++ env_text fs ++ rest) = env_text fs ++ rest).
    { rewrite skipn_app, L8, Nat.sub_diag, skipn_all2 by lia. reflexivity. }
    rewrite F8, S8, unle_le by (apply lt_pow; assumption). fold num.
    replace (length fs + (length (le 8 (makedev a b) ++ env_text fs ++ rest) - length fs)) with (length (le 8 (makedev a b) ++ env_text fs ++ rest)) in E by (rewrite (app_length (le 8 _)); lia).
    rewrite E. destruct (parse_fields _ d' gen u' rest) as [((d2, u2), r)|]; reflexivity.
  - symmetry. apply Nat.leb_gt. rewrite app_length, L8. destruct (env_text fs ++ rest); [congruence|cbn [length]; lia].
Qed.
Lemma all_imported_lemma d gen a b fs : (a < 2 ^ 31)%N -> (b < 2 ^ 31)%N -> fs <> [] -> (forall x, In x fs -> good_field x) ->
  exists num d' u dsq, parse_udev_env d gen (le 8 (makedev a b) ++ env_text fs) = Ok (d', u, 0%Z)
   /\ imported d d' num fs /\ num_text a b num /\ v_num u = num /\ device_from fs u /\ v_dsq u = Some dsq /\ dsq_text u dsq.
Proof.
  intros Ha Hb Ne G. destruct (parse_lemma d gen a b fs [] Ha Hb) as (num & d' & u & f & A1 & A2 & A3 & A4 & A5 & A6 & E); [|exact G|].
  - rewrite app_nil_r. destruct fs as [|(k, v) fs]; [congruence|]. intros X. apply (f_equal (@length _)) in X.
    change (env_text ((k, v) :: fs)) with ((field_text (k, v) ++ [NUL]) ++ env_text fs) in X. rewrite !app_length in X. cbn [length] in X. lia.
  - rewrite app_nil_r in E. rewrite E. destruct f as [|f]; [lia|]. cbn [parse_fields Z.eqb negb].
    eexists num, d', _, _. split; [reflexivity|]. split; [exact A2|]. split; [exact A1|]. split; [exact A4|]. split; [exact A3|]. split; [reflexivity|].
    unfold dsq_text. cbn [v_diskseq v_partn v_part]. eexists _, _. split; [apply print_decimal|]. split; [apply print_decimal|]. reflexivity.
Qed.
Lemma rest_dropped_lemma d gen a b fs s rest : (a < 2 ^ 31)%N -> (b < 2 ^ 31)%N -> (forall x, In x fs -> good_field x) -> bad_string s ->
  exists num d' u, parse_udev_env d gen (le 8 (makedev a b) ++ env_text fs ++ s ++ NUL :: rest) = Ok (d', u, 1%Z)
   /\ imported d d' num fs /\ num_text a b num /\ v_num u = num /\ device_from fs u /\ v_dsq u = None.
Proof.
  intros Ha Hb G Bs. destruct (parse_lemma d gen a b fs (s ++ NUL :: rest) Ha Hb) as (num & d' & u & f & A1 & A2 & A3 & A4 & A5 & A6 & E); [|exact G|].
  - destruct (env_text fs); [destruct s; discriminate|discriminate].
  - rewrite E. destruct f as [|f]; [lia|]. rewrite field_step by apply Bs. rewrite bad_lemma by exact Bs. cbn [Z.ltb Z.compare Z.eqb negb].
    exists num, d', u. split; [reflexivity|]. split; [exact A2|]. split; [exact A1|]. split; [exact A4|]. split; [exact A3|exact A5].
Qed.
Lemma strlen_none s : no_nul s -> strlen s = None.
Proof.
  unfold no_nul. induction s as [|c s IH]; intros H; cbn [strlen]; [reflexivity|].
  destruct (Ascii.eqb_spec c NUL) as [->|]; [exfalso; apply H; left; reflexivity|]. rewrite IH; [reflexivity|]. intros X. apply H. right. exact X.
Qed.
Lemma unterminated_lemma d gen a b fs rest : (a < 2 ^ 31)%N -> (b < 2 ^ 31)%N -> (forall x, In x fs -> good_field x) -> no_nul rest -> rest <> [] ->
  parse_udev_env d gen (le 8 (makedev a b) ++ env_text fs ++ rest) = UB.
Proof.
  intros Ha Hb G Nr Ne. destruct (parse_lemma d gen a b fs rest Ha Hb) as (num & d' & u & f & A1 & A2 & A3 & A4 & A5 & A6 & E); [|exact G|].
  - destruct (env_text fs); [exact Ne|discriminate].
  - rewrite E. destruct f as [|f]; [lia|]. destruct rest as [|c rest]; [congruence|]. cbn [parse_fields]. rewrite strlen_none by exact Nr. reflexivity.
Qed.
Lemma devpath_lemma d gen a b fs v rest : (a < 2 ^ 31)%N -> (b < 2 ^ 31)%N -> (forall x, In x fs -> good_field x) -> no_nul v -> v <> [] -> ~ has_dir v ->
  parse_udev_env d gen (le 8 (makedev a b) ++ env_text fs ++ (B "DEVPATH=" ++ v) ++ NUL :: rest) = UB.
Proof.
  intros Ha Hb G Nv Ne Nd. destruct (parse_lemma d gen a b fs ((B "DEVPATH=" ++ v) ++ NUL :: rest) Ha Hb) as (num & d' & u & f & A1 & A2 & A3 & A4 & A5 & A6 & E); [|exact G|].
  - destruct (env_text fs); discriminate.
  - rewrite E. destruct f as [|f]; [lia|]. rewrite field_step.
    + unfold device_add_field. change (B "DEVPATH=" ++ v) with (B "DEVPATH" ++ "="%char :: v). rewrite index_field by (cbv; intuition discriminate).
      destruct (split_field (B "DEVPATH") v) as (-> & ->). destruct v as [|c v0] eqn:Ev; [congruence|]. rewrite <- Ev in *.
      replace (length v =? 0) with false by (subst v; reflexivity).
      destruct (set_lemma d' (v_num u) (v_seqnum u) gen (B "DEVPATH") v) as (d2 & -> & _). cbn [obind]. change (0 <? 0)%Z with false. cbv iota zeta.
      change (key_eqb (B "DEVPATH") (B "ACTION")) with false. change (key_eqb (B "DEVPATH") (B "DEVPATH")) with true. cbv iota.
      destruct (rstr v (B "/")) eqn:R; [exfalso; apply Nd; apply has_dir_rstr; congruence|reflexivity].
    + unfold no_nul in *. intros X. apply in_app_or in X as [X|X]; [cbv in X; intuition discriminate|exact (Nv X)].
Qed.
Lemma short_env_lemma d gen env : length env <= 8 -> exists u, parse_udev_env d gen env = Ok (d, u, (-22)%Z).
Proof. intros H. eexists. unfold parse_udev_env. rewrite (proj2 (Nat.leb_le _ _) H). reflexivity. Qed.
Lemma readable_lemma d d' num fs k v w id seq gen : imported d d' num fs -> last_value fs k = Some v -> name_ok k -> no_nul w ->
  exists flags, kv_get d' (Ucmd (DevCtx (Some num) id) seq gen) w NS_UDEV k 0 None None = (Some ([v ++ [NUL]], flags), 0%Z).
Proof.
  intros (I1 & _) L Nk Nw. destruct (I1 k v L) as (r & E & D & O & F).
  set (u := Ucmd (DevCtx (Some num) id) seq gen).
  destruct (get_lemma d' u w NS_UDEV k) as (_ & H); [|exact Nw|].
  - split; [discriminate|exact Nk].
  - destruct (H r E) as (_ & R & _); [rewrite O; cbv; intuition discriminate|].
    exists (r_flags r). rewrite <- D. apply R; [|rewrite D; discriminate].
    intros m _. unfold granted, read_bit, flag. destruct m; try exact I; apply F; cbn; tauto.
Qed.
Lemma capable_true uid c : c <= 10 -> uid = Some 0%N \/ ~ root_command c -> client_is_capable uid c = Ok true.
Proof. intros Hc H. destruct (capable_cases uid c Hc) as (b & -> & Hb). rewrite (proj2 Hb H). reflexivity. Qed.
Lemma served_lemma d gen uid msg c body : request msg 2 c body -> c <= 10 ->
  (uid = Some 0%N \/ ~ root_command c -> ~ device_command c -> exists r u, create_cmd d gen uid msg = Ok (Created c r d u))
  /\ (uid = Some 0%N \/ ~ root_command c -> device_command c -> forall d' u x, parse_udev_env d gen body = Ok (d', u, x) -> (0 <= x)%Z ->
        exists r, create_cmd d gen uid msg = Ok (Created c r d' u))
  /\ (uid <> Some 0%N -> root_command c -> create_cmd d gen uid msg = Ok Refused).
Proof.
  intros R Hc. rewrite (create_lemma d gen uid msg 2 c body R). replace (10 <? c) with false by (symmetry; apply Nat.ltb_ge; exact Hc).
  destruct (reg_ok c Hc) as (r & _ & En). rewrite En. destruct (entry_lemma c r En) as (_ & _ & Ei & _). split; [|split].
  - intros H Nd. rewrite (capable_true uid c Hc H). cbn [negb orb Nat.eqb]. destruct (g_import r); [exfalso; tauto|]. eexists _, _. reflexivity.
  - intros H Dc d' u x -> Hx. rewrite (capable_true uid c Hc H), (proj2 Ei Dc). cbn [negb orb Nat.eqb].
    rewrite (proj2 (Z.ltb_ge _ _) Hx). eexists. reflexivity.
  - intros Hu Rc. destruct (capable_cases uid c Hc) as (b & -> & Hb). destruct b; [|reflexivity]. exfalso. destruct (proj1 Hb eq_refl); contradiction.
Qed.
Lemma protocol_lemma d gen uid msg p c body : request msg p c body -> c <= 10 -> p <> 2 -> create_cmd d gen uid msg = Ok Refused.
Proof.
  intros R Hc Hp. rewrite (create_lemma d gen uid msg p c body R). replace (10 <? c) with false by (symmetry; apply Nat.ltb_ge; exact Hc).
  rewrite (proj2 (Nat.eqb_neq _ _) Hp), orb_true_r. reflexivity.
Qed.
Lemma out_of_range_lemma d gen uid msg p c body : request msg p c body -> 10 < c -> create_cmd d gen uid msg = UB.
Proof. intros R Hc. rewrite (create_lemma d gen uid msg p c body R), (proj2 (Nat.ltb_lt _ _) Hc). reflexivity. Qed.
Lemma reply_lemma msg p c body add write : request msg p c body -> (0 <= add)%Z -> exists r, reply_failure msg add write = Ok (false, r).
Proof.
  intros R Ha. destruct (request_header _ _ _ _ R) as (E & _). unfold reply_failure. rewrite E. cbn [obind h_prot].
  destruct (p <=? PROTOCOL); [|eexists; reflexivity]. rewrite (proj2 (Z.ltb_ge _ _) Ha). eexists. reflexivity.
Qed.
Lemma device_num c : device_command c -> c <= 10. Proof. intros [->| ->]; lia. Qed.
Lemma device_created d gen uid msg c body : request msg 2 c body -> device_command c -> exists r,
  create_cmd d gen uid msg = if match uid with Some 0%N => true | _ => false end then
    match parse_udev_env d gen body with Ok (d, u, x) => Ok (if (x <? 0)%Z then Refused else Created c r d u) | UB => UB end else Ok Refused.
Proof.
  intros R Dc. pose proof (device_num c Dc) as Hc. rewrite (create_lemma d gen uid msg 2 c body R). replace (10 <? c) with false by (symmetry; apply Nat.ltb_ge; exact Hc).
  destruct (reg_ok c Hc) as (r & _ & En). rewrite En. destruct (entry_lemma c r En) as (_ & _ & Ei & _). rewrite (proj2 Ei Dc). exists r.
  destruct uid as [[|q]|]; [reflexivity|..]; destruct Dc as [->| ->]; reflexivity.
Qed.
Lemma missing_lemma d gen uid msg c env : request msg 2 c env -> device_command c -> length env <= 8 -> create_cmd d gen uid msg = Ok Refused.
Proof.
  intros R Dc L. destruct (device_created d gen uid msg c env R Dc) as (r & ->). destruct (short_env_lemma d gen env L) as (u & ->).
  destruct uid as [[|q]|]; reflexivity.
Qed.
Lemma dropped_lemma d gen msg c a b fs s rest : request msg 2 c (le 8 (makedev a b) ++ env_text fs ++ s ++ NUL :: rest) -> device_command c ->
  (a < 2 ^ 31)%N -> (b < 2 ^ 31)%N -> (forall x, In x fs -> good_field x) -> bad_string s ->
  exists r num d' u, create_cmd d gen (Some 0%N) msg = Ok (Created c r d' u) /\ imported d d' num fs /\ num_text a b num /\ v_num u = num /\ device_from fs u /\ v_dsq u = None.
Proof.
  intros R Dc Ha Hb G Bs. destruct (device_created d gen (Some 0%N) _ c _ R Dc) as (r & ->).
  destruct (rest_dropped_lemma d gen a b fs s rest Ha Hb G Bs) as (num & d' & u & -> & H). exists r, num, d', u. split; [reflexivity|exact H].
Qed.
Lemma end_lemma d gen msg c a b fs rest : request msg 2 c (le 8 (makedev a b) ++ env_text fs ++ rest) -> device_command c ->
  (a < 2 ^ 31)%N -> (b < 2 ^ 31)%N -> (forall x, In x fs -> good_field x) -> no_nul rest -> rest <> [] ->
  create_cmd d gen (Some 0%N) msg = UB.
Proof.
  intros R Dc Ha Hb G Nr Ne. destruct (device_created d gen (Some 0%N) _ c _ R Dc) as (r & ->). rewrite unterminated_lemma by assumption. reflexivity.
Qed.
Lemma path_lemma d gen msg c a b fs v rest : request msg 2 c (le 8 (makedev a b) ++ env_text fs ++ (B "DEVPATH=" ++ v) ++ NUL :: rest) -> device_command c ->
  (a < 2 ^ 31)%N -> (b < 2 ^ 31)%N -> (forall x, In x fs -> good_field x) -> no_nul v -> v <> [] -> ~ has_dir v ->
  create_cmd d gen (Some 0%N) msg = UB.
Proof.
  intros R Dc Ha Hb G Nv Ne Nd. destruct (device_created d gen (Some 0%N) _ c _ R Dc) as (r & ->). rewrite devpath_lemma by assumption. reflexivity.
Qed.
