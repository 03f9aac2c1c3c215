From Verif Require Import Base Kvs_Model Tok_Model UtilStr_Model UtilStr_Spec BaseUtil_Model BaseUtil_Spec BaseUtil_Proofs UbrKey_Model UbrDb_Model UbrRec_Model UbrRec_Proofs
  UbrMsg_Model UbrPerm_Spec UbrMsg_Spec UbrPerm_Proofs UbrMsg_Proofs Ifc_Model Ifc_Spec.
Local Open Scope nat_scope.

(* names *)
Lemma to_name_lemma c n : cmd_type_to_name c = Ok n <-> exists s, named c s /\ n = B s.
Proof.
  unfold cmd_type_to_name, cmd_names. do 11 (destruct c as [|c]; [cbn [map nth_error named]; split; [intros [= <-]; eexists; split; [reflexivity|reflexivity]|intros (s & -> & ->); reflexivity]|]).
  cbn [map nth_error named]. split; [destruct c; discriminate|intros (s & [] & _)].
Qed.
Lemma to_name_ub c : 10 < c -> cmd_type_to_name c = UB.
Proof. intros H. unfold cmd_type_to_name. rewrite (proj2 (nth_error_None cmd_names c)); [reflexivity|cbn; lia]. Qed.
Lemma loop_lemma s : forall n c, c + n = 11 -> exists k, name_loop n c s = Ok k /\
  ((c <= k <= 10 /\ cmd_type_to_name k = Ok s) \/ (k = 1 /\ forall j, c <= j <= 10 -> cmd_type_to_name j <> Ok s)).
Proof.
  induction n as [|n IH]; intros c E; cbn [name_loop].
  - exists 1. split; [reflexivity|]. right. split; [reflexivity|]. intros j Hj. lia.
  - destruct (cmd_type_to_name c) as [x|] eqn:Ex; cbn [obind].
    2:{ unfold cmd_type_to_name in Ex. destruct (nth_error cmd_names c) eqn:En; [discriminate Ex|]. apply nth_error_None in En. cbn in En. lia. }
    destruct (key_eqb_spec s x) as [->|Ne].
    + exists c. split; [reflexivity|]. left. split; [lia|exact Ex].
    + destruct (IH (S c)) as (k & -> & D); [lia|]. exists k. split; [reflexivity|]. destruct D as [[D1 D2]|[D1 D2]]; [left; split; [lia|exact D2]|].
      right. split; [exact D1|]. intros j Hj. destruct (Nat.eq_dec j c) as [->|N]; [congruence|apply D2; lia].
Qed.
Lemma names_inj c c' n : cmd_type_to_name c = Ok n -> cmd_type_to_name c' = Ok n -> c = c'.
Proof.
  unfold cmd_type_to_name. intros H H'. destruct (nth_error cmd_names c) as [x|] eqn:E; [|discriminate H]. destruct (nth_error cmd_names c') as [y|] eqn:E'; [|discriminate H'].
  assert (D : NoDup cmd_names).
  { unfold cmd_names. cbn [map]. repeat (constructor; [cbv; intuition discriminate|]). constructor. }
  refine (proj1 (NoDup_nth_error cmd_names) D c c' _ _).
  - apply nth_error_Some. congruence.
  - congruence.
Qed.
Lemma to_type_lemma s c : cmd_name_to_type (Some s) = Ok c <-> (cmd_type_to_name c = Ok s \/ c = 1 /\ forall j, j <= 10 -> cmd_type_to_name j <> Ok s).
Proof.
  unfold cmd_name_to_type. destruct (loop_lemma s (CMD_END + 1 - CMD_UNDEFINED) CMD_UNDEFINED eq_refl) as (k & -> & D). split.
  - intros [= <-]. destruct D as [[_ D]|[D1 D2]]; [left; exact D|]. right. split; [exact D1|]. intros j Hj. apply D2. unfold CMD_UNDEFINED. lia.
  - intros [H|[-> H]]; f_equal; destruct D as [[D1 D2]|[D1 D2]].
    + eapply names_inj; eassumption.
    + assert (c <= 10) by (destruct (Nat.le_gt_cases c 10) as [L|L]; [exact L|rewrite to_name_ub in H by exact L; discriminate H]).
      elim (D2 c); [unfold CMD_UNDEFINED; lia|exact H].
    + elim (H k); [lia|exact D2].
    + exact D1.
Qed.
Lemma named_le c s : named c s -> c <= 10.
Proof. do 11 (destruct c as [|c]; [lia|]). intros []. Qed.
Lemma names_lemma c s : named c s -> cmd_type_to_name c = Ok (B s) /\ cmd_name_to_type (Some (B s)) = Ok c.
Proof. intros H. assert (E : cmd_type_to_name c = Ok (B s)) by (apply to_name_lemma; exists s; auto). split; [exact E|]. apply to_type_lemma. left. exact E. Qed.
Lemma unknown_lemma s : (forall c n, named c n -> s <> B n) -> cmd_name_to_type (Some s) = Ok 1.
Proof.
  intros H. apply to_type_lemma. right. split; [reflexivity|]. intros j _ E. apply to_name_lemma in E as (n & Hn & ->). exact (H j n Hn eq_refl).
Qed.

(* the environment *)
Lemma getenv_lemma k fs : no_eq k -> (forall x, In x fs -> no_eq (fst x)) -> getenv (environment fs) k = first_value fs k.
Proof.
  intros Nk. induction fs as [|[k' v] fs IH]; intros G; [reflexivity|]. cbn [environment map getenv first_value].
  assert (Nk' : no_eq k') by exact (G (k', v) (or_introl eq_refl)). unfold field_text at 1 2. cbn [fst snd].
  destruct (list_eq_dec ascii_dec k' k) as [->|Ne].
  - rewrite firstn_app, firstn_all2 by lia. replace (length k + 1 - length k) with 1 by lia. cbn [firstn].
    destruct (key_eqb_spec (k ++ ["="%char]) (k ++ B "=")) as [_|N]; [|elim N; reflexivity].
    f_equal. exact (proj2 (split_field k v)).
  - destruct (key_eqb_spec (firstn (length k + 1) (k' ++ "="%char :: v)) (k ++ B "=")) as [E|_].
    2:{ apply IH. intros x Hx. apply G. right. exact Hx. }
    exfalso. apply Ne. pose proof E as F.
    apply (f_equal (fun l => index EQUALS (l ++ skipn (length k + 1) (k' ++ "="%char :: v)))) in E. cbv beta in E. rewrite firstn_skipn in E.
    change (B "=") with ["="%char] in E. rewrite <- app_assoc in E. cbn [app] in E. rewrite !index_field in E by assumption.
    injection E as L. rewrite <- L in F. rewrite firstn_app, firstn_all2 in F by (clear; lia).
    replace (length k' + 1 - length k') with 1 in F by (clear; lia). cbn [firstn] in F. exact (app_inv_tail _ _ _ F).
Qed.
Lemma no_eq_major : no_eq (B "MAJOR"). Proof. cbv. intuition discriminate. Qed.
Lemma no_eq_minor : no_eq (B "MINOR"). Proof. cbv. intuition discriminate. Qed.
Lemma taken_number s : s <> [] -> (forall c, In c s -> digit c) -> (dec_value s < 2 ^ 64)%N -> taken_for s (dec_value s).
Proof. intros N D L. right. exists [], [], s. split; [reflexivity|]. split; [intros c []|]. split; [split; assumption|]. split; [exact L|]. left. auto. Qed.
Lemma env_in s max : s <> [] -> (forall c, In c s -> digit c) -> (dec_value s <= max)%N -> (max < 2 ^ 64)%N -> env_get_ull (Some s) 0 max = (0%Z, Some (dec_value s)).
Proof. intros N D L M. apply env_lemma. split; [apply taken_number; auto; lia|]. right. lia. Qed.
Lemma env_out s max : s <> [] -> (forall c, In c s -> digit c) -> (0 < max < dec_value s)%N -> (dec_value s < 2 ^ 64)%N -> env_get_ull (Some s) 0 max = ((- ERANGE)%Z, None).
Proof.
  intros N D [M0 L] M. pose proof (proj2 (strtoull_taken s (dec_value s)) (taken_number s N D M)) as E. unfold env_get_ull. rewrite E. cbn [orb length Nat.eqb negb].
  rewrite (proj2 (N.eqb_neq 0 max)) by (clear - M0; lia). cbn [negb andb]. rewrite (proj2 (N.ltb_lt _ _) L), orb_true_r. reflexivity.
Qed.
Lemma makedev_lemma a b : gnu_makedev a b = makedev a b.
Proof. unfold gnu_makedev, makedev. change (2 ^ 12)%N with 4096%N. change (2 ^ 8)%N with 256%N. change (2^44)%N with 17592186044416%N. change (2^20)%N with 1048576%N. lia. Qed.
Lemma devt_lemma fs a b : (forall x, In x fs -> no_eq (fst x)) -> env_number fs (B "MAJOR") a -> env_number fs (B "MINOR") b -> (a < 2 ^ 20)%N -> (b < 2 ^ 12)%N ->
  add_devt (environment fs) = inl (le 8 (makedev a b)).
Proof.
  intros G (s & Fa & Na & Da & <-) (t & Fb & Nb & Db & <-) La Lb. unfold add_devt. rewrite !getenv_lemma by (exact G || apply no_eq_major || apply no_eq_minor). rewrite Fa, Fb.
  change (2 ^ 20)%N with 1048576%N in La. change (2 ^ 12)%N with 4096%N in Lb.
  rewrite !env_in by (assumption || reflexivity || (unfold MAX_MAJOR, MAX_MINOR; lia)). cbn [Z.ltb Z.compare].
  rewrite !N.mod_small by (change (2 ^ 32)%N with 4294967296%N; lia). rewrite makedev_lemma. reflexivity.
Qed.
Lemma devt_range fs a b : (forall x, In x fs -> no_eq (fst x)) -> env_number fs (B "MAJOR") a -> env_number fs (B "MINOR") b -> (a < 2 ^ 20)%N -> (2 ^ 12 <= b < 2 ^ 64)%N ->
  add_devt (environment fs) = inr (- ERANGE)%Z.
Proof.
  intros G (s & Fa & Na & Da & <-) (t & Fb & Nb & Db & <-) La [Lb Lb']. unfold add_devt. rewrite !getenv_lemma by (exact G || apply no_eq_major || apply no_eq_minor). rewrite Fa, Fb.
  change (2 ^ 20)%N with 1048576%N in La. change (2 ^ 12)%N with 4096%N in Lb.
  rewrite env_in by (assumption || reflexivity || (unfold MAX_MAJOR; lia)). rewrite env_out by (assumption || (unfold MAX_MINOR; lia)). reflexivity.
Qed.
Lemma devt_none fs : (forall x, In x fs -> no_eq (fst x)) -> first_value fs (B "MAJOR") = None \/ (exists a, (a < 2 ^ 20)%N /\ env_number fs (B "MAJOR") a) /\ first_value fs (B "MINOR") = None ->
  add_devt (environment fs) = inr (- ENOKEY)%Z.
Proof.
  intros G H. unfold add_devt. rewrite !getenv_lemma by (exact G || apply no_eq_major || apply no_eq_minor). destruct H as [->|[(a & La & s & -> & N & D & E) ->]]; [reflexivity|]. change (2 ^ 20)%N with 1048576%N in La.
  rewrite env_in by (assumption || reflexivity || (unfold MAX_MAJOR; lia)). reflexivity.
Qed.
Lemma env_text_lemma fs : List.concat (map (fun s => s ++ [NUL]) (environment fs)) = env_text fs.
Proof. unfold environment, env_text. rewrite map_map. reflexivity. Qed.
Lemma req_request q body : q_cmd q < 256 -> header_of (req_header q ++ body) (q_seqnum q) 2 (q_cmd q) (q_flags q) body.
Proof.
  intros H. unfold header_of, req_header. rewrite <- !app_assoc. f_equal. cbn [le app]. rewrite (N.mod_small (N.of_nat (q_cmd q))) by lia. unfold ascii_of_nat. reflexivity.
Qed.
Lemma header_request msg s p c f body : header_of msg s p c f body -> p < 256 -> c < 256 -> request msg p c body.
Proof. intros -> Hp Hc. exists (le 8 s), (le 2 f). split; [apply le_length|]. split; [apply le_length|]. split; [exact Hp|]. split; [exact Hc|]. reflexivity. Qed.

Lemma raw_lemma q : negb (N.land (q_flags q) FL_UNMODIFIED =? 0)%N = N.testbit (q_flags q) 2.
Proof.
  change FL_UNMODIFIED with (2 ^ 2)%N. destruct (N.testbit (q_flags q) 2) eqn:E.
  - destruct (N.eqb_spec (N.land (q_flags q) (2 ^ 2)) 0) as [Z|]; [|reflexivity]. apply (f_equal (fun x => N.testbit x 2)) in Z. rewrite N.land_spec, E in Z. discriminate Z.
  - replace (N.land (q_flags q) (2 ^ 2)) with 0%N; [reflexivity|]. symmetry. apply N.bits_inj_0. intros n. rewrite N.land_spec.
    destruct (N.eq_dec n 2) as [->|Ne]; [rewrite E; reflexivity|]. rewrite N.pow2_bits_false by congruence. apply andb_false_r.
Qed.
Lemma good_no_eq fs : (forall x, In x fs -> good_field x) -> forall x, In x fs -> no_eq (fst x).
Proof. intros G x H. exact (proj1 (G x H)). Qed.

Lemma request_lemma env q msg : q_cmd q < 256 -> req_message env q = inl msg -> exists body, header_of msg (q_seqnum q) 2 (q_cmd q) (q_flags q) body
  /\ (~ raw q -> ~ device_command (q_cmd q) -> body = []).
Proof.
  intros Hc. unfold req_message, raw. rewrite raw_lemma. destruct (N.testbit (q_flags q) 2).
  - intros H. assert (X : exists body, msg = req_header q ++ body).
    { destruct (q_mem q) as [m|], (q_size q) as [|n]; try discriminate H; injection H as <-; [eexists; reflexivity|eexists; reflexivity|exists []; rewrite app_nil_r; reflexivity]. }
    destruct X as (body & ->). exists body. split; [apply req_request; exact Hc|congruence].
  - intros H. match type of H with match ?b with _ => _ end = _ => destruct b as [body|] eqn:Eb; [|discriminate H] end. injection H as <-.
    exists body. split; [apply req_request; exact Hc|]. intros _ Nd. revert Eb. destruct (Nat.eqb_spec (q_cmd q) CMD_SCAN) as [E|_]; [elim Nd; right; exact E|].
    destruct (Nat.eqb_spec (q_cmd q) CMD_CHECKPOINT) as [E|_]; [elim Nd; left; exact E|]. congruence.
Qed.
Lemma raw_sent_lemma env q m : raw q -> q_cmd q < 256 -> q_mem q = Some m -> length m = q_size q -> exists msg, req_message env q = inl msg /\ header_of msg (q_seqnum q) 2 (q_cmd q) (q_flags q) m.
Proof.
  intros R Hc Em El. unfold req_message. rewrite raw_lemma, R, Em. eexists. split; [reflexivity|]. rewrite firstn_all2 by lia. apply req_request. exact Hc.
Qed.
Lemma scan_message fs q a b : ~ raw q -> q_cmd q = 5 -> (forall x, In x fs -> no_eq (fst x)) -> env_number fs (B "MAJOR") a -> env_number fs (B "MINOR") b -> (a < 2 ^ 20)%N -> (b < 2 ^ 12)%N ->
  exists msg, req_message (environment fs) q = inl msg /\ header_of msg (q_seqnum q) 2 5 (q_flags q) (le 8 (makedev a b) ++ env_text fs).
Proof.
  intros R Hc G Ma Mi La Lb. unfold req_message. rewrite raw_lemma. unfold raw in R. destruct (N.testbit (q_flags q) 2); [elim R; reflexivity|]. rewrite Hc. cbn [CMD_SCAN Nat.eqb].
  unfold add_scan. rewrite (devt_lemma fs a b) by assumption. rewrite env_text_lemma. eexists. split; [reflexivity|]. rewrite <- Hc. apply req_request. lia.
Qed.
Lemma first_some_ne fs k n : env_number fs k n -> fs <> [].
Proof. intros (s & H & _) ->. discriminate H. Qed.
Lemma scan_lemma d gen fs q a b : ~ raw q -> q_cmd q = 5 -> (forall x, In x fs -> good_field x) -> env_number fs (B "MAJOR") a -> env_number fs (B "MINOR") b -> (a < 2 ^ 20)%N -> (b < 2 ^ 12)%N ->
  exists msg r num d' u dsq, req_message (environment fs) q = inl msg /\ create_cmd d gen (Some 0%N) msg = Ok (Created 5 r d' u)
   /\ imported d d' num fs /\ num_text a b num /\ v_num u = num /\ device_from fs u /\ v_dsq u = Some dsq /\ dsq_text u dsq.
Proof.
  intros R Hc G Ma Mi La Lb. destruct (scan_message fs q a b R Hc (good_no_eq fs G) Ma Mi La Lb) as (msg & E & H).
  change (2 ^ 20)%N with 1048576%N in La. change (2 ^ 12)%N with 4096%N in Lb.
  destruct (all_imported_lemma d gen a b fs) as (num & d' & u & dsq & P & X); [change (2 ^ 31)%N with 2147483648%N; lia|change (2 ^ 31)%N with 2147483648%N; lia|eapply first_some_ne; exact Ma|exact G|].
  apply header_request in H; [|lia|lia]. destruct (served_lemma d gen (Some 0%N) msg 5 _ H) as (_ & S2 & _); [lia|].
  destruct (S2 (or_introl eq_refl) (or_intror eq_refl) d' u 0%Z P) as (r & C); [lia|].
  exists msg, r, num, d', u, dsq. split; [exact E|]. split; [exact C|exact X].
Qed.
Lemma scan_range fs q a b : ~ raw q -> q_cmd q = 5 -> (forall x, In x fs -> no_eq (fst x)) -> env_number fs (B "MAJOR") a -> env_number fs (B "MINOR") b -> (a < 2 ^ 20)%N -> (2 ^ 12 <= b < 2 ^ 64)%N ->
  req_message (environment fs) q = inr (- ERANGE)%Z.
Proof.
  intros R Hc G Ma Mi La Lb. unfold req_message. rewrite raw_lemma. unfold raw in R. destruct (N.testbit (q_flags q) 2); [elim R; reflexivity|].
  rewrite Hc. cbn [CMD_SCAN CMD_CHECKPOINT Nat.eqb]. unfold add_scan. rewrite (devt_range fs a b G Ma Mi La Lb). reflexivity.
Qed.
Lemma scan_missing fs q : ~ raw q -> q_cmd q = 5 -> (forall x, In x fs -> no_eq (fst x)) ->
  first_value fs (B "MAJOR") = None \/ (exists a, (a < 2 ^ 20)%N /\ env_number fs (B "MAJOR") a) /\ first_value fs (B "MINOR") = None -> req_message (environment fs) q = inr (- ENOKEY)%Z.
Proof.
  intros R Hc G H. unfold req_message. rewrite raw_lemma. unfold raw in R. destruct (N.testbit (q_flags q) 2); [elim R; reflexivity|].
  rewrite Hc. cbn [CMD_SCAN CMD_CHECKPOINT Nat.eqb]. unfold add_scan. rewrite (devt_none fs G H). reflexivity.
Qed.
Lemma keys_app env keys : add_keys env keys = List.concat (map (fun k => match getenv env k with Some v => k ++ B "=" ++ v ++ [NUL] | None => [] end) keys).
Proof. induction keys as [|k keys IH]; [reflexivity|]. cbn [add_keys map List.concat]. rewrite IH. destruct (getenv env k); [|reflexivity]. rewrite <- !app_assoc. reflexivity. Qed.
Lemma check_message fs q name keys a b : ~ raw q -> q_cmd q = 3 -> q_check q = Checkpoint (Some name) (Some keys) (length keys) -> (forall x, In x fs -> no_eq (fst x)) -> (forall k, In k keys -> no_eq k) ->
  env_number fs (B "MAJOR") a -> env_number fs (B "MINOR") b -> (a < 2 ^ 20)%N -> (b < 2 ^ 12)%N ->
  exists msg, req_message (environment fs) q = inl msg /\ header_of msg (q_seqnum q) 2 3 (q_flags q)
    (le 8 (makedev a b) ++ name ++ NUL :: List.concat (map (fun k => match first_value fs k with Some v => field_text (k, v) ++ [NUL] | None => [] end) keys)).
Proof.
  intros R Hc Eq G Gk Ma Mi La Lb. unfold req_message. rewrite raw_lemma. unfold raw in R. destruct (N.testbit (q_flags q) 2); [elim R; reflexivity|].
  rewrite Eq. pose proof (devt_lemma fs a b G Ma Mi La Lb) as E. rewrite Hc. cbn [CMD_SCAN CMD_CHECKPOINT Nat.eqb]. unfold add_checkpoint. rewrite E, firstn_all.
  eexists. split; [destruct (length keys); reflexivity|]. rewrite <- Hc. rewrite keys_app.
  replace (map _ keys) with (map (fun k => match first_value fs k with Some v => field_text (k, v) ++ [NUL] | None => [] end) keys).
  - cbn [app]. apply req_request. lia.
  - apply map_ext_in. intros k Hk. rewrite getenv_lemma by auto. destruct (first_value fs k) as [v|]; [|reflexivity]. unfold field_text. cbn [fst snd]. change (B "=") with ["="%char]. rewrite <- app_assoc. reflexivity.
Qed.
Lemma check_lemma d gen fs q name keys a b : ~ raw q -> q_cmd q = 3 -> q_check q = Checkpoint (Some name) (Some keys) (length keys) -> (forall x, In x fs -> no_eq (fst x)) -> (forall k, In k keys -> no_eq k) ->
  env_number fs (B "MAJOR") a -> env_number fs (B "MINOR") b -> (a < 2 ^ 20)%N -> (b < 2 ^ 12)%N -> no_nul name -> no_eq name ->
  exists msg r num d' u, req_message (environment fs) q = inl msg /\ create_cmd d gen (Some 0%N) msg = Ok (Created 3 r d' u)
   /\ (forall x, recs d' x = recs d x) /\ num_text a b num /\ v_num u = num /\ v_action u = None /\ v_seqnum u = 0%N /\ v_dsq u = None.
Proof.
  intros R Hc Eq G Gk Ma Mi La Lb Nn Ne. destruct (check_message fs q name keys a b R Hc Eq G Gk Ma Mi La Lb) as (msg & E & H).
  change (2 ^ 20)%N with 1048576%N in La. change (2 ^ 12)%N with 4096%N in Lb. apply header_request in H; [|lia|lia].
  destruct (dropped_lemma d gen msg 3 a b [] name _ H) as (r & num & d' & u & C & Im & Nt & Nu & Df & Ds);
    [left; reflexivity|change (2 ^ 31)%N with 2147483648%N; lia|change (2 ^ 31)%N with 2147483648%N; lia|intros x []|split; [exact Nn|left; exact Ne]|].
  exists msg, r, num, d', u. split; [exact E|]. split; [exact C|]. split; [intros x; apply (proj2 Im); intros k v Hv; discriminate Hv|].
  split; [exact Nt|]. split; [exact Nu|]. split; [exact (proj1 Df)|]. split; [|exact Ds]. exact (proj1 (proj2 (proj2 (proj2 (proj2 (proj2 Df)))))).
Qed.

(* results *)
Lemma header_parts msg s p c f body : header_of msg s p c f body -> p < 256 -> c < 256 -> (s < 2 ^ 64)%N ->
  (length msg <? HEADER_SIZE) = false /\ unle (firstn 8 msg) = s /\ read_header msg = Ok (Header p c) /\ skipn HEADER_SIZE msg = body /\ length msg = 12 + length body.
Proof.
  intros H Hp Hc Hs. assert (L : length msg = 12 + length body) by (rewrite H; rewrite !app_length, le_length; cbn [length]; rewrite app_length, le_length; lia).
  destruct (request_header _ _ _ _ (header_request _ _ _ _ _ _ H Hp Hc)) as (A1 & A2 & A3).
  split; [exact A2|]. split; [|split; [exact A1|split; [exact A3|exact L]]].
  rewrite H, firstn_app, firstn_all2, le_length, Nat.sub_diag, firstn_O, app_nil_r by (rewrite le_length; lia). apply unle_le. exact Hs.
Qed.
Lemma result_lemma cmd msg file s p c f body : header_of msg s p c f body -> p < 256 -> c < 256 -> (s < 2 ^ 64)%N -> cmd <> 7 -> exists l,
  req_result cmd msg file = Ok (inl l) /\ rsl_status (Some l) = Ok (0%Z, s) /\ rsl_protocol (Some l) = Ok (0%Z, p)
  /\ rsl_data (Some l) = Ok (if N.odd s then None else match body with [] => None | _ => Some body end).
Proof.
  intros H Hp Hc Hs Ncmd. destruct (header_parts msg s p c f body H Hp Hc Hs) as (A1 & A2 & A3 & A4 & A5). exists (Rsl msg None).
  unfold req_result. rewrite A1. destruct (Nat.eqb_spec cmd CMD_DBDUMP) as [E|_]; [elim Ncmd; exact E|]. split; [reflexivity|].
  unfold rsl_data, rsl_status, rsl_protocol. cbn [l_msg l_shm]. rewrite A1, A2, A3, A4. cbn [obind h_prot]. split; [reflexivity|]. split; [reflexivity|].
  destruct (N.odd s); [reflexivity|]. rewrite A5. destruct body; [reflexivity|]. destruct (Nat.ltb_spec HEADER_SIZE (12 + length (a :: body))) as [_|N]; [reflexivity|]. unfold HEADER_SIZE in N. cbn in N. lia.
Qed.
Lemma dump_lemma msg s p c f body data rest : header_of msg s p c f body -> p < 256 -> c < 256 -> (s < 2 ^ 64)%N -> data <> [] -> (N.of_nat (4 + length data) < 2 ^ 32)%N -> exists l,
  req_result 7 msg (le 4 (N.of_nat (4 + length data)) ++ data ++ rest) = Ok (inl l) /\ rsl_status (Some l) = Ok (0%Z, s) /\ rsl_protocol (Some l) = Ok (0%Z, p)
  /\ rsl_data (Some l) = Ok (if N.odd s then None else Some data).
Proof.
  intros H Hp Hc Hs Nd Ld. destruct (header_parts msg s p c f body H Hp Hc Hs) as (A1 & A2 & A3 & A4 & A5). set (n := N.of_nat (4 + length data)) in *.
  exists (Rsl msg (Some (le 4 n ++ data))). unfold req_result. rewrite A1. cbn [Nat.eqb CMD_DBDUMP].
  assert (Ll : length (le 4 n ++ data ++ rest) = 4 + length data + length rest) by (rewrite !app_length, le_length; lia).
  rewrite Ll. destruct (Nat.ltb_spec (4 + length data + length rest) 4) as [X|_]; [lia|].
  assert (Eu : unle (firstn 4 (le 4 n ++ data ++ rest)) = n).
  { rewrite firstn_app, firstn_all2, le_length, Nat.sub_diag, firstn_O, app_nil_r by (rewrite le_length; lia). apply unle_le. exact Ld. }
  rewrite Eu. assert (n = N.of_nat (4 + length data)) as En by reflexivity. clearbody n. assert (0 < length data) by (destruct data; [congruence|cbn; lia]).
  destruct (N.ltb_spec n 4) as [X|_]; [lia|]. destruct (N.eqb_spec n 4) as [X|_]; [lia|].
  destruct (N.ltb_spec (N.of_nat (4 + length data + length rest)) n) as [X|_]; [lia|]. split.
  - do 4 f_equal. rewrite app_assoc, firstn_app. rewrite firstn_all2 by (rewrite app_length, le_length; lia).
    replace (N.to_nat n - length (le 4 n ++ data)) with 0 by (rewrite app_length, le_length; lia). rewrite firstn_O, app_nil_r. reflexivity.
  - unfold rsl_data, rsl_status, rsl_protocol. cbn [l_msg l_shm]. rewrite A1, A2, A3. cbn [obind h_prot]. split; [reflexivity|]. split; [reflexivity|].
    destruct (N.odd s); [reflexivity|]. do 2 f_equal.
Qed.
Lemma short_reply_lemma cmd msg file : length msg < 12 -> req_result cmd msg file = Ok (inr (- EBADMSG)%Z).
Proof. intros H. unfold req_result. rewrite (proj2 (Nat.ltb_lt _ HEADER_SIZE) H). reflexivity. Qed.
Lemma results_safe cmd msg file l : req_result cmd msg file = Ok (inl l) -> (exists s, rsl_status (Some l) = Ok (0%Z, s)) /\ (exists p, rsl_protocol (Some l) = Ok (0%Z, p)) /\ (exists x, rsl_data (Some l) = Ok x).
Proof.
  intros H. assert (E : (length (l_msg l) <? HEADER_SIZE) = false).
  { unfold req_result in H. destruct (length msg <? HEADER_SIZE) eqn:E; [discriminate H|].
    destruct (cmd =? CMD_DBDUMP); [|injection H as <-; exact E]. destruct (length file <? 4); [discriminate H|].
    destruct (unle (firstn 4 file) <? 4)%N; [discriminate H|]. destruct (unle (firstn 4 file) =? 4)%N; [injection H as <-; exact E|].
    destruct (N.of_nat (length file) <? unle (firstn 4 file))%N; [discriminate H|injection H as <-; exact E]. }
  unfold rsl_data, rsl_status, rsl_protocol, read_header. rewrite E. cbn [obind]. split; [eexists; reflexivity|]. split; [eexists; reflexivity|].
  destruct (N.odd _); [eexists; reflexivity|]. destruct (l_shm l); [eexists; reflexivity|]. destruct (HEADER_SIZE <? length (l_msg l)); eexists; reflexivity.
Qed.
