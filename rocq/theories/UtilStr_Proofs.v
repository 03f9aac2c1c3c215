From Verif Require Import Base Tok_Model Tok_Spec Tok_Proofs UtilStr_Model UtilStr_Spec.
Local Open Scope nat_scope.

Lemma inset_In set c : inset set c = true <-> In c set.
Proof.
  unfold inset. rewrite existsb_exists. split.
  - intros (x & H & E). apply Ascii.eqb_eq in E. subst. exact H.
  - intros H. exists c. split; [exact H|apply Ascii.eqb_refl].
Qed.
Lemma inset_not set c : inset set c = false <-> ~ In c set.
Proof. rewrite <- inset_In. destruct (inset set c); split; congruence. Qed.

Lemma span_app f u r : forallb f u = true -> match r with c :: _ => f c = false | [] => True end -> span f (u ++ r) = length u.
Proof.
  induction u as [|c u IH]; cbn [forallb app span length]; intros H1 H2.
  - destruct r as [|c r]; cbn [span]; [reflexivity|]. rewrite H2. reflexivity.
  - apply andb_true_iff in H1 as [-> H1]. f_equal. auto.
Qed.
Lemma skipn_len {A} (a b : list A) : skipn (length a) (a ++ b) = b.
Proof. rewrite skipn_app, Nat.sub_diag, skipn_all2 by lia. reflexivity. Qed.
Lemma run_ok f pre u c r i : i = length pre -> forallb f u = true -> f c = false -> run f (pre ++ u ++ c :: r) i = Ok (i + length u).
Proof.
  intros -> H1 H2. unfold run. rewrite skipn_len, span_app by auto. rewrite !app_length. cbn [length].
  destruct (Nat.ltb_spec (length pre + length u) (length pre + (length u + S (length r)))); [reflexivity|lia].
Qed.
Lemma at_ok pre c r i : i = length pre -> at_ (pre ++ c :: r) i = Ok c.
Proof. intros ->. unfold at_. rewrite nth_error_app2, Nat.sub_diag by lia. reflexivity. Qed.
Lemma put_ok pre c r i x : i = length pre -> put_bytes (pre ++ c :: r) i [x] = Ok (pre ++ x :: r).
Proof. intros E. rewrite put_bytes_at; [reflexivity|lia|cbn [length]; lia]. Qed.

Lemma spaces_b s : spaces s <-> forallb (inset DELIMS) s = true.
Proof.
  unfold spaces. rewrite forallb_forall. split; intros H c Hc; specialize (H c Hc); apply inset_In; exact H.
Qed.
Definition wordc (c : byte) : bool := negb (inset (NUL :: DELIMS ++ [EQ]) c).
Definition valc (c : byte) : bool := negb (inset (NUL :: DELIMS ++ QUOTES) c).

Lemma not_inset_cons x set c : inset (x :: set) c = Ascii.eqb c x || inset set c.
Proof. reflexivity. Qed.
Lemma inset_app a b c : inset (a ++ b) c = inset a c || inset b c.
Proof. apply existsb_app. Qed.

Lemma key_word_b k : ~ In NUL k -> (key_word k <-> k <> [] /\ forallb wordc k = true).
Proof.
  intros N. unfold key_word. rewrite forallb_forall. split; intros [H1 H2]; split; auto; intros c Hc; specialize (H2 c Hc).
  - destruct H2 as [H2 H3]. unfold wordc. rewrite not_inset_cons, inset_app. destruct (Ascii.eqb_spec c NUL) as [->|_]; [contradiction|].
    apply inset_not in H2. change (map ascii_of_nat _) with DELIMS in H2. rewrite H2. cbn.
    destruct (Ascii.eqb_spec c EQ) as [E|E]; [contradiction|reflexivity].
  - unfold wordc in H2. rewrite not_inset_cons, inset_app in H2. apply negb_true_iff, orb_false_iff in H2 as [_ H2].
    apply orb_false_iff in H2 as [H2 H3]. split; [apply inset_not; exact H2|]. apply inset_not in H3. intros ->. apply H3. left. reflexivity.
Qed.
Lemma quote_b c : a_quote c <-> inset QUOTES c = true.
Proof. rewrite inset_In. unfold a_quote. cbn. intuition congruence. Qed.
Lemma plain_value_b k : ~ In NUL k -> (plain_value k <-> k <> [] /\ forallb valc k = true).
Proof.
  intros N. unfold plain_value. rewrite forallb_forall. split; intros [H1 H2]; split; auto; intros c Hc; specialize (H2 c Hc).
  - destruct H2 as [H2 H3]. unfold valc. rewrite not_inset_cons, inset_app. destruct (Ascii.eqb_spec c NUL) as [->|_]; [contradiction|].
    apply inset_not in H2. change (map ascii_of_nat _) with DELIMS in H2. rewrite H2. rewrite quote_b in H3. apply not_true_iff_false in H3.
    rewrite H3. reflexivity.
  - unfold valc in H2. rewrite not_inset_cons, inset_app in H2. apply negb_true_iff, orb_false_iff in H2 as [_ H2].
    apply orb_false_iff in H2 as [H2 H3]. split; [apply inset_not; exact H2|]. rewrite quote_b. congruence.
Qed.

(* What follows the '=' *)
Definition kv_value (b : bytes) (k str : nat) : outcome kv_result :=
  let! str := strspn DELIMS b str in
  let! c := at_ b str in
  if in_literal QUOTES c then
    let v := str + 1 in
    let! e := strchr b v c in
    match e with
    | None => Ok (- EINVAL, b, None)%Z
    | Some e =>
        let! b := put_bytes b e [NUL] in
        let! str := (let! c := at_ b (e + 1) in if Ascii.eqb c NUL then Ok (e + 1) else strspn DELIMS b (e + 1)) in
        let! c := at_ b str in
        Ok (if Ascii.eqb c NUL then (0%Z, b, Some (k, v)) else ((- EINVAL)%Z, b, None))
    end
  else
    let v := str in
    let! str := strcspn (DELIMS ++ QUOTES) b str in
    let! c := at_ b str in
    if Ascii.eqb c NUL then Ok (0%Z, b, Some (k, v)) else
    if in_literal QUOTES c then Ok (- EINVAL, b, None)%Z else
    let p := str in
    let! str := strspn DELIMS b str in
    let! b := put_bytes b p [NUL] in
    let! c := at_ b str in
    Ok (if Ascii.eqb c NUL then (0%Z, b, Some (k, v)) else ((- EINVAL)%Z, b, None)).

Lemma nul_space : inset DELIMS NUL = false. Proof. reflexivity. Qed.
Lemma eq_space : inset DELIMS EQ = false. Proof. reflexivity. Qed.

Lemma wordc_space c : wordc c = true -> inset DELIMS c = false /\ c <> EQ /\ c <> NUL.
Proof.
  unfold wordc. rewrite not_inset_cons, inset_app. intros H. apply negb_true_iff, orb_false_iff in H as [A H].
  apply orb_false_iff in H as [H1 H2]. split; [exact H1|]. split; [apply inset_not in H2; intros ->; apply H2; left; reflexivity|].
  apply Ascii.eqb_neq in A. exact A.
Qed.
Lemma valc_cases c : valc c = true <-> inset DELIMS c = false /\ inset QUOTES c = false /\ c <> NUL.
Proof.
  unfold valc. rewrite not_inset_cons, inset_app, negb_true_iff, !orb_false_iff, Ascii.eqb_neq. tauto.
Qed.
Lemma in_literal_cases c : in_literal QUOTES c = inset QUOTES c || Ascii.eqb c NUL.
Proof. unfold in_literal. rewrite inset_app. cbn [inset existsb]. rewrite orb_false_r. reflexivity. Qed.

Definition cut (sp2 : bytes) : bytes := tl (sp2 ++ [EQ]).
Lemma cut_length sp2 : length (cut sp2) = length sp2.
Proof. unfold cut. destruct sp2 as [|c s]; [reflexivity|]. cbn [app tl]. rewrite app_length. cbn. lia. Qed.

(* after the key: p is at the end of the key k *)
Lemma key_then sp1 k sp2 c r : forallb (inset DELIMS) sp1 = true -> k <> [] -> forallb wordc k = true ->
  forallb (inset DELIMS) sp2 = true -> inset DELIMS c = false -> wordc c = false \/ sp2 <> [] ->
  get_kv (sp1 ++ k ++ sp2 ++ c :: r) =
    if Ascii.eqb c EQ then kv_value (sp1 ++ k ++ NUL :: cut sp2 ++ r) (length sp1) (length sp1 + length k + length sp2 + 1)
    else Ok ((- EINVAL)%Z, sp1 ++ k ++ sp2 ++ c :: r, None).
Proof.
  intros S1 K W S2 C WC. destruct k as [|k0 k]; [contradiction|]. set (b := sp1 ++ (k0 :: k) ++ sp2 ++ c :: r).
  pose proof W as W0. cbn [forallb] in W0. apply andb_true_iff in W0 as [W0 _]. apply wordc_space in W0 as (A1 & A2 & A3).
  apply Ascii.eqb_neq in A2, A3.
  unfold get_kv.
  assert (H0 : exists c0, at_ b 0 = Ok c0 /\ Ascii.eqb c0 NUL = false).
  { unfold b. destruct sp1 as [|x sp1]; cbn [app].
    - exists k0. auto.
    - exists x. split; [reflexivity|]. cbn [forallb] in S1. apply andb_true_iff in S1 as [S1 _].
      destruct (Ascii.eqb_spec x NUL) as [->|]; [discriminate S1|reflexivity]. }
  destruct H0 as (c0 & H0 & H0b). rewrite H0. cbn [obind]. rewrite H0b.
  assert (H1 : strspn DELIMS b 0 = Ok (length sp1)).
  { unfold strspn, b. apply (run_ok (inset DELIMS) [] sp1 k0); auto. }
  rewrite H1. cbn [obind].
  assert (H2 : at_ b (length sp1) = Ok k0). { unfold b. apply at_ok. reflexivity. }
  rewrite H2. cbn [obind]. rewrite A3, A2.
  assert (X : exists c1 r1, sp2 ++ c :: r = c1 :: r1 /\ wordc c1 = false /\ (Ascii.eqb c1 EQ = true -> sp2 = [] /\ c1 = c)
     /\ r1 = tl (sp2 ++ c :: r)).
  { destruct sp2 as [|x sp2]; cbn [app tl].
    - exists c, r. destruct WC as [WC|]; [|congruence]. auto.
    - exists x, (sp2 ++ c :: r). cbn [forallb] in S2. apply andb_true_iff in S2 as [S2 _]. split; [reflexivity|]. split.
      + unfold wordc. rewrite not_inset_cons, inset_app, S2. cbn [orb]. rewrite orb_true_r. reflexivity.
      + split; [|reflexivity]. intros E. apply Ascii.eqb_eq in E. subst. rewrite eq_space in S2. discriminate. }
  destruct X as (c1 & r1 & X & W1 & X2 & X3).
  assert (H3 : strcspn (DELIMS ++ [EQ]) b (length sp1) = Ok (length sp1 + length (k0 :: k))).
  { unfold strcspn, b. rewrite X. apply run_ok; auto. }
  rewrite H3. cbn [obind].
  assert (Eb : b = (sp1 ++ k0 :: k) ++ sp2 ++ c :: r) by (unfold b; rewrite <- app_assoc; reflexivity).
  assert (H4 : at_ b (length sp1 + length (k0 :: k)) = Ok c1).
  { rewrite Eb, X. apply at_ok. rewrite app_length. reflexivity. }
  rewrite H4. cbn [obind].
  assert (H5 : (if Ascii.eqb c1 EQ then Ok (length sp1 + length (k0 :: k)) else strspn DELIMS b (length sp1 + length (k0 :: k)))
     = Ok (length sp1 + length (k0 :: k) + length sp2)).
  { destruct (Ascii.eqb c1 EQ) eqn:E.
    - destruct (X2 eq_refl) as [-> _]. cbn [length]. f_equal. lia.
    - unfold strspn. rewrite Eb. apply run_ok; auto. rewrite app_length. reflexivity. }
  rewrite H5. cbn [obind].
  assert (H6 : at_ b (length sp1 + length (k0 :: k) + length sp2) = Ok c).
  { rewrite Eb, app_assoc. apply at_ok. rewrite !app_length. reflexivity. }
  rewrite H6. cbn [obind]. destruct (Ascii.eqb_spec c EQ) as [->|E]; cbn [negb]; [|reflexivity].
  assert (H7 : put_bytes b (length sp1 + length (k0 :: k)) [NUL] = Ok (sp1 ++ (k0 :: k) ++ NUL :: cut sp2 ++ r)).
  { rewrite Eb, X, put_ok by (rewrite app_length; reflexivity). f_equal. rewrite <- app_assoc. f_equal. f_equal.
    f_equal. rewrite X3. unfold cut. destruct sp2; cbn [app tl]; [reflexivity|]. rewrite <- app_assoc. reflexivity. }
  rewrite H7. cbn [obind]. reflexivity.
Qed.

(* the quoted value *)
Lemma value_quoted pre sp3 q v t d r k i : i = length pre -> forallb (inset DELIMS) sp3 = true -> inset QUOTES q = true ->
  ~ In q v -> ~ In NUL v -> forallb (inset DELIMS) t = true -> inset DELIMS d = false ->
  kv_value (pre ++ sp3 ++ q :: v ++ q :: t ++ d :: r) k i =
    Ok (if Ascii.eqb d NUL then (0%Z, pre ++ sp3 ++ q :: v ++ NUL :: t ++ d :: r, Some (k, length pre + length sp3 + 1))
        else ((- EINVAL)%Z, pre ++ sp3 ++ q :: v ++ NUL :: t ++ d :: r, None)).
Proof.
  intros -> S3 Q V1 V2 T D. unfold kv_value, strspn.
  assert (Q' : inset DELIMS q = false /\ Ascii.eqb q NUL = false).
  { apply quote_b in Q. destruct Q; subst; split; reflexivity. }
  destruct Q' as [Q1 Q2].
  rewrite run_ok by auto. cbn [obind].
  rewrite (app_assoc pre sp3). rewrite at_ok by (rewrite app_length; reflexivity). cbn [obind].
  rewrite in_literal_cases, Q. cbn [orb].
  unfold strchr.
  assert (E : (pre ++ sp3) ++ q :: v ++ q :: t ++ d :: r = (pre ++ sp3 ++ [q]) ++ v ++ q :: t ++ d :: r) by (rewrite <- !app_assoc; reflexivity).
  rewrite E. rewrite run_ok; cycle 1.
  { rewrite !app_length. cbn [length]. lia. }
  { apply forallb_forall. intros x Hx. apply andb_true_iff. split; apply negb_true_iff, Ascii.eqb_neq; intros ->; contradiction. }
  { rewrite Ascii.eqb_refl. reflexivity. }
  cbn [obind]. rewrite (app_assoc _ v). rewrite at_ok by (rewrite !app_length; cbn [length]; lia). cbn [obind].
  rewrite Ascii.eqb_refl. rewrite put_ok by (rewrite !app_length; cbn [length]; lia). cbn [obind].
  set (e := length pre + length sp3 + 1 + length v).
  assert (G : (let! c := at_ (((pre ++ sp3 ++ [q]) ++ v) ++ NUL :: t ++ d :: r) (e + 1) in
     if Ascii.eqb c NUL then Ok (e + 1) else run (inset DELIMS) (((pre ++ sp3 ++ [q]) ++ v) ++ NUL :: t ++ d :: r) (e + 1)) = Ok (e + 1 + length t)).
  { assert (E2 : ((pre ++ sp3 ++ [q]) ++ v) ++ NUL :: t ++ d :: r = (pre ++ sp3 ++ [q] ++ v ++ [NUL]) ++ t ++ d :: r) by (rewrite <- !app_assoc; reflexivity).
    rewrite E2. destruct t as [|t0 t]; cbn [app].
    - rewrite at_ok by (unfold e; repeat (rewrite app_length; cbn [length]); lia). cbn [obind length]. rewrite Nat.add_0_r.
      destruct (Ascii.eqb d NUL); [reflexivity|]. change (d :: r) with ([] ++ d :: r). rewrite run_ok; [cbn [length]; f_equal; lia| |reflexivity|exact D].
      unfold e; repeat (rewrite app_length; cbn [length]); lia.
    - rewrite at_ok by (unfold e; repeat (rewrite app_length; cbn [length]); lia). cbn [obind].
      pose proof T as T0. cbn [forallb] in T0. apply andb_true_iff in T0 as [T0 _].
      destruct (Ascii.eqb_spec t0 NUL) as [->|]; [rewrite nul_space in T0; discriminate|].
      change (t0 :: t ++ d :: r) with ((t0 :: t) ++ d :: r). rewrite run_ok; auto.
      unfold e; repeat (rewrite app_length; cbn [length]); lia. }
  rewrite G. cbn [obind].
  assert (E3 : ((pre ++ sp3 ++ [q]) ++ v) ++ NUL :: t ++ d :: r = (pre ++ sp3 ++ [q] ++ v ++ [NUL] ++ t) ++ d :: r) by (rewrite <- !app_assoc; reflexivity).
  rewrite E3 at 1. rewrite at_ok by (unfold e; repeat (rewrite app_length; cbn [length]); lia). cbn [obind].
  assert (E4 : ((pre ++ sp3 ++ [q]) ++ v) ++ NUL :: t ++ d :: r = pre ++ sp3 ++ q :: v ++ NUL :: t ++ d :: r) by (rewrite <- !app_assoc; reflexivity).
  rewrite E4. reflexivity.
Qed.
(* the closing quote is missing *)
Lemma value_unclosed pre sp3 q v k i : i = length pre -> forallb (inset DELIMS) sp3 = true -> inset QUOTES q = true ->
  ~ In q v -> ~ In NUL v ->
  kv_value (pre ++ sp3 ++ q :: v ++ [NUL]) k i = Ok ((- EINVAL)%Z, pre ++ sp3 ++ q :: v ++ [NUL], None).
Proof.
  intros -> S3 Q V1 V2. unfold kv_value, strspn.
  assert (Q' : inset DELIMS q = false /\ Ascii.eqb NUL q = false).
  { apply quote_b in Q. destruct Q; subst; split; reflexivity. }
  destruct Q' as [Q1 Q2].
  rewrite run_ok by auto. cbn [obind].
  rewrite (app_assoc pre sp3). rewrite at_ok by (rewrite app_length; reflexivity). cbn [obind].
  rewrite in_literal_cases, Q. cbn [orb]. unfold strchr.
  assert (E : (pre ++ sp3) ++ q :: v ++ [NUL] = (pre ++ sp3 ++ [q]) ++ v ++ [NUL]) by (rewrite <- !app_assoc; reflexivity).
  rewrite E. rewrite run_ok; cycle 1.
  { rewrite !app_length. cbn [length]. lia. }
  { apply forallb_forall. intros x Hx. apply andb_true_iff. split; apply negb_true_iff, Ascii.eqb_neq; intros ->; contradiction. }
  { rewrite andb_false_r. reflexivity. }
  cbn [obind]. rewrite (app_assoc _ v). rewrite at_ok by (rewrite !app_length; cbn [length]; lia). cbn [obind]. rewrite Q2. reflexivity.
Qed.
(* nothing follows *)
Lemma value_missing pre sp3 k i : i = length pre -> forallb (inset DELIMS) sp3 = true ->
  kv_value (pre ++ sp3 ++ [NUL]) k i = UB.
Proof.
  intros -> S3. unfold kv_value, strspn. rewrite run_ok by auto. cbn [obind].
  rewrite (app_assoc pre sp3). rewrite at_ok by (rewrite app_length; reflexivity). cbn [obind].
  change (in_literal QUOTES NUL) with true. cbv iota. unfold strchr, run. rewrite skipn_all2 by (rewrite !app_length; cbn [length]; lia).
  cbn [span]. rewrite !app_length. cbn [length].
  destruct (Nat.ltb_spec (length pre + length sp3 + 1 + 0) (length pre + length sp3 + 1)); [lia|reflexivity].
Qed.
(* the unquoted value *)
Lemma value_plain pre sp3 v t d r k i : i = length pre -> forallb (inset DELIMS) sp3 = true -> v <> [] -> forallb valc v = true ->
  forallb (inset DELIMS) t = true -> inset DELIMS d = false -> valc d = false \/ t <> [] -> (d = NUL -> r = []) ->
  let b := pre ++ sp3 ++ v ++ t ++ d :: r in
  exists b', kv_value b k i = Ok (if Ascii.eqb d NUL then 0%Z else (- EINVAL)%Z, b', if Ascii.eqb d NUL then Some (k, length pre + length sp3) else None)
    /\ length b' = length b /\ (d = NUL -> exists r', b' = pre ++ sp3 ++ v ++ NUL :: r').
Proof.
  intros -> S3 V0 V T D WD R b. unfold kv_value, strspn.
  destruct v as [|v0 v]; [contradiction|]. pose proof V as V1. cbn [forallb] in V1. apply andb_true_iff in V1 as [V1 _].
  apply valc_cases in V1 as (A1 & A2 & A3).
  assert (H1 : run (inset DELIMS) b (length pre) = Ok (length pre + length sp3)) by (unfold b; apply run_ok; auto).
  rewrite H1. cbn [obind].
  assert (Eb : b = (pre ++ sp3) ++ (v0 :: v) ++ t ++ d :: r) by (unfold b; rewrite <- app_assoc; reflexivity).
  assert (H2 : at_ b (length pre + length sp3) = Ok v0). { rewrite Eb. apply at_ok. rewrite app_length. reflexivity. }
  rewrite H2. cbn [obind]. rewrite in_literal_cases, A2. apply Ascii.eqb_neq in A3. rewrite A3. cbn [orb].
  assert (X : exists c1 r1, t ++ d :: r = c1 :: r1 /\ valc c1 = false /\ (c1 = NUL -> t = [] /\ d = NUL)
    /\ (in_literal QUOTES c1 = true -> t = [] /\ c1 = d)).
  { destruct t as [|x t]; cbn [app].
    - exists d, r. destruct WD as [WD|]; [|congruence]. auto.
    - exists x, (t ++ d :: r). cbn [forallb] in T. apply andb_true_iff in T as [T _]. split; [reflexivity|].
      assert (x <> NUL) by (intros ->; discriminate T). split.
      + unfold valc. rewrite not_inset_cons, inset_app, T. cbn [orb]. rewrite orb_true_r. reflexivity.
      + split; [intros; congruence|]. rewrite in_literal_cases. intros H'. apply orb_true_iff in H' as [H'|H'].
        * apply inset_In in T. apply inset_In in H'. cbn in T, H'. exfalso.
          destruct H' as [<-|[<-|[]]]; repeat destruct T as [T|T]; try discriminate T; exact T.
        * apply Ascii.eqb_eq in H'. congruence. }
  destruct X as (c1 & r1 & X & W1 & XN & XQ).
  assert (H3 : strcspn (DELIMS ++ QUOTES) b (length pre + length sp3) = Ok (length pre + length sp3 + length (v0 :: v))).
  { unfold strcspn. rewrite Eb, X. apply run_ok; auto. rewrite app_length. reflexivity. }
  rewrite H3. cbn [obind].
  assert (Ec : b = ((pre ++ sp3) ++ (v0 :: v)) ++ c1 :: r1) by (rewrite Eb, X, app_assoc; reflexivity).
  assert (H4 : at_ b (length pre + length sp3 + length (v0 :: v)) = Ok c1).
  { rewrite Ec. apply at_ok. rewrite !app_length. reflexivity. }
  rewrite H4. cbn [obind].
  destruct (Ascii.eqb_spec c1 NUL) as [E|E].
  { destruct (XN E) as [-> ->]. exists b. split; [reflexivity|]. split; [reflexivity|]. intros _. exists r. rewrite Eb, <- !app_assoc. reflexivity. }
  destruct (in_literal QUOTES c1) eqn:Q.
  { destruct (XQ eq_refl) as [-> ->]. exists b. destruct (Ascii.eqb_spec d NUL); [contradiction|]. split; [reflexivity|]. split; [reflexivity|]. contradiction. }
  assert (H5 : run (inset DELIMS) b (length pre + length sp3 + length (v0 :: v)) = Ok (length pre + length sp3 + length (v0 :: v) + length t)).
  { rewrite Eb, (app_assoc (pre ++ sp3)). apply run_ok; auto. rewrite !app_length. reflexivity. }
  rewrite H5. cbn [obind].
  assert (H6 : put_bytes b (length pre + length sp3 + length (v0 :: v)) [NUL] = Ok (((pre ++ sp3) ++ (v0 :: v)) ++ NUL :: r1)).
  { rewrite Ec. apply put_ok. rewrite !app_length. reflexivity. }
  rewrite H6. cbn [obind].
  assert (TN : t <> []).
  { intros ->. cbn [app] in X. injection X as <- <-. rewrite in_literal_cases in Q. apply orb_false_iff in Q as [Q _].
    assert (valc d = true) by (apply valc_cases; auto). congruence. }
  destruct t as [|t0 t]; [contradiction|]. cbn [app] in X. injection X as <- <-.
  assert (H7 : at_ (((pre ++ sp3) ++ (v0 :: v)) ++ NUL :: t ++ d :: r) (length pre + length sp3 + length (v0 :: v) + length (t0 :: t)) = Ok d).
  { replace (((pre ++ sp3) ++ (v0 :: v)) ++ NUL :: t ++ d :: r) with (((pre ++ sp3) ++ (v0 :: v) ++ NUL :: t) ++ d :: r)
      by (rewrite <- !app_assoc; reflexivity).
    apply at_ok. repeat (rewrite !app_length; cbn [length]). lia. }
  rewrite H7. cbn [obind]. eexists. split; [|split].
  - destruct (Ascii.eqb d NUL); reflexivity.
  - rewrite Ec. rewrite !app_length. cbn [length]. reflexivity.
  - intros _. exists (t ++ d :: r). rewrite <- !app_assoc. reflexivity.
Qed.

Lemma kv_blank s : spaces s -> get_kv (s ++ [NUL]) = Ok ((- ENODATA)%Z, s ++ [NUL], None).
Proof.
  intros S. apply spaces_b in S. unfold get_kv. destruct s as [|c s]; [reflexivity|].
  change (at_ ((c :: s) ++ [NUL]) 0) with (Ok c). cbn [obind]. destruct (Ascii.eqb_spec c NUL) as [->|_]; [discriminate S|].
  assert (R : strspn DELIMS ((c :: s) ++ [NUL]) 0 = Ok (0 + length (c :: s))) by (apply (run_ok (inset DELIMS) [] (c :: s) NUL []); auto).
  rewrite R. cbn [obind].
  rewrite at_ok by reflexivity. reflexivity.
Qed.
Lemma kv_no_key sp1 r : spaces sp1 -> get_kv (sp1 ++ EQ :: r) = Ok ((- EINVAL)%Z, sp1 ++ EQ :: r, None).
Proof.
  intros S. apply spaces_b in S. unfold get_kv.
  assert (H0 : exists c0, at_ (sp1 ++ EQ :: r) 0 = Ok c0 /\ Ascii.eqb c0 NUL = false).
  { destruct sp1 as [|x sp1]; cbn [app]; [exists EQ; auto|].
    exists x. split; [reflexivity|]. cbn [forallb] in S. apply andb_true_iff in S as [S _].
    destruct (Ascii.eqb_spec x NUL) as [->|]; [discriminate S|reflexivity]. }
  destruct H0 as (c0 & H0 & H0b). rewrite H0. cbn [obind]. rewrite H0b.
  assert (R : strspn DELIMS (sp1 ++ EQ :: r) 0 = Ok (0 + length sp1)) by (apply (run_ok (inset DELIMS) [] sp1 EQ r); auto).
  rewrite R. cbn [obind]. rewrite at_ok by reflexivity. reflexivity.
Qed.

Lemma not_in_app {A} (x : A) a b : ~ In x (a ++ b) <-> ~ In x a /\ ~ In x b.
Proof. rewrite in_app_iff. tauto. Qed.

Lemma text_at pre k r : ~ In NUL k -> text (skipn (length pre) (pre ++ k ++ NUL :: r)) k.
Proof. intros N. rewrite skipn_len. split; [exact N|]. exists r. reflexivity. Qed.

Definition kv_pair_result (s k v : bytes) : Prop :=
  exists b ko vo, get_kv (s ++ [NUL]) = Ok (0%Z, b, Some (ko, vo)) /\ length b = length s + 1
    /\ text (skipn ko b) k /\ text (skipn vo b) v.

Lemma kv_pair s k v : ~ In NUL s -> pair_text s k v -> kv_pair_result s k v.
Proof.
  intros N (sp1 & sp2 & sp3 & sp4 & S1 & S2 & S3 & S4 & K & H). unfold kv_pair_result.
  apply spaces_b in S1, S2, S3, S4.
  assert (Nk : ~ In NUL k).
  { destruct H as [[_ ->]|(q & _ & _ & ->)]; rewrite !not_in_app in N; tauto. }
  apply (key_word_b k Nk) in K as [K0 K].
  assert (Z : forall r, get_kv (sp1 ++ k ++ sp2 ++ EQ :: r) = kv_value (sp1 ++ k ++ NUL :: cut sp2 ++ r) (length sp1) (length sp1 + length k + length sp2 + 1)).
  { intros r. rewrite key_then; auto. }
  destruct H as [[V Es]|(q & Q & NQ & Es)].
  - assert (Nv : ~ In NUL v) by (rewrite Es, !not_in_app in N; tauto). apply (plain_value_b v Nv) in V as [V0 V].
    assert (E : s ++ [NUL] = sp1 ++ k ++ sp2 ++ EQ :: (sp3 ++ v ++ sp4 ++ [NUL])) by (rewrite Es, <- !app_assoc; reflexivity).
    rewrite E, Z.
    assert (E2 : sp1 ++ k ++ NUL :: cut sp2 ++ sp3 ++ v ++ sp4 ++ [NUL] = (sp1 ++ k ++ NUL :: cut sp2) ++ sp3 ++ v ++ sp4 ++ [NUL]) by (rewrite <- !app_assoc; reflexivity).
    rewrite E2.
    destruct (value_plain (sp1 ++ k ++ NUL :: cut sp2) sp3 v sp4 NUL [] (length sp1) (length sp1 + length k + length sp2 + 1)) as (b' & H1 & H2 & H3); auto.
    { repeat (rewrite !app_length; cbn [length]). rewrite cut_length. lia. }
    cbn [Ascii.eqb] in H1. change (Ascii.eqb NUL NUL) with true in H1. cbv iota in H1.
    destruct (H3 eq_refl) as [r' Hb]. rewrite H1. eexists _, _, _. split; [reflexivity|]. split; [|split].
    + rewrite H2, <- E2. apply (f_equal (@List.length ascii)) in E. rewrite app_length in E. cbn [length] in E. rewrite E.
      repeat (rewrite !app_length; cbn [length]). rewrite cut_length. lia.
    + rewrite Hb, <- !app_assoc. cbn [app]. apply text_at. exact Nk.
    + rewrite Hb. rewrite <- app_length. rewrite (app_assoc _ sp3). apply text_at. exact Nv.
  - assert (Nv : ~ In NUL v) by (rewrite Es, !not_in_app in N; tauto). apply quote_b in Q.
    assert (E : s ++ [NUL] = sp1 ++ k ++ sp2 ++ EQ :: (sp3 ++ q :: v ++ q :: sp4 ++ [NUL])) by (rewrite Es; repeat (rewrite <- !app_assoc; cbn [app]); reflexivity).
    rewrite E, Z.
    assert (E2 : sp1 ++ k ++ NUL :: cut sp2 ++ sp3 ++ q :: v ++ q :: sp4 ++ [NUL] = (sp1 ++ k ++ NUL :: cut sp2) ++ sp3 ++ q :: v ++ q :: sp4 ++ [NUL]) by (rewrite <- !app_assoc; reflexivity).
    rewrite E2, value_quoted; auto; [|repeat (rewrite !app_length; cbn [length]); rewrite cut_length; lia].
    change (Ascii.eqb NUL NUL) with true. cbv iota. eexists _, _, _. split; [reflexivity|]. split; [|split].
    + rewrite Es. repeat (rewrite !app_length; cbn [length]). rewrite cut_length. change (length (B "=")) with 1. lia.
    + rewrite <- !app_assoc. cbn [app]. apply text_at. exact Nk.
    + set (pre := sp1 ++ k ++ NUL :: cut sp2).
      replace (pre ++ sp3 ++ q :: v ++ NUL :: sp4 ++ [NUL]) with ((pre ++ sp3 ++ [q]) ++ v ++ NUL :: sp4 ++ [NUL]) by (rewrite <- !app_assoc; reflexivity).
      replace (length pre + length sp3 + 1) with (length (pre ++ sp3 ++ [q])) by (rewrite !app_length; cbn [length]; lia).
      apply text_at. exact Nv.
Qed.
Lemma kv_valueless s : ~ In NUL s -> valueless s -> get_kv (s ++ [NUL]) = UB.
Proof.
  intros N (sp1 & k & sp2 & sp3 & S1 & S2 & S3 & K & Es). apply spaces_b in S1, S2, S3.
  assert (Nk : ~ In NUL k) by (rewrite Es, !not_in_app in N; tauto). apply (key_word_b k Nk) in K as [K0 K].
  assert (E : s ++ [NUL] = sp1 ++ k ++ sp2 ++ EQ :: (sp3 ++ [NUL])) by (rewrite Es, <- !app_assoc; reflexivity).
  rewrite E, key_then by auto. rewrite Ascii.eqb_refl.
  replace (sp1 ++ k ++ NUL :: cut sp2 ++ sp3 ++ [NUL]) with ((sp1 ++ k ++ NUL :: cut sp2) ++ sp3 ++ [NUL]) by (rewrite <- !app_assoc; reflexivity).
  apply value_missing; auto. repeat (rewrite !app_length; cbn [length]). rewrite cut_length. lia.
Qed.

Lemma index_split c t n : index c t = Some n -> t = firstn n t ++ c :: skipn (S n) t /\ ~ In c (firstn n t).
Proof.
  revert n. induction t as [|x t IH]; intros n; cbn [index]; [discriminate|].
  destruct (Ascii.eqb_spec x c) as [->|E]; [intros [= <-]; split; [reflexivity|intros []]|].
  destruct (index c t) as [m|]; [|discriminate]. intros [= <-]. destruct (IH m eq_refl) as [A B].
  cbn [firstn skipn app]. split; [f_equal; exact A|]. intros [X|X]; [contradiction|exact (B X)].
Qed.
Lemma index_none c t : index c t = None -> ~ In c t.
Proof.
  induction t as [|x t IH]; cbn [index]; [intros _ []|]. destruct (Ascii.eqb_spec x c) as [->|E]; [discriminate|].
  destruct (index c t); [discriminate|]. intros _ [X|X]; [contradiction|exact (IH eq_refl X)].
Qed.

Lemma kv_cases s : ~ In NUL s -> spaces s \/ valueless s \/ (exists k v, pair_text s k v)
  \/ exists b, get_kv (s ++ [NUL]) = Ok ((- EINVAL)%Z, b, None) /\ length b = length s + 1.
Proof.
  intros N.
  destruct (span_split (inset DELIMS) s) as (sp1 & _ & E1 & S1 & D1). set (s1 := skipn (span (inset DELIMS) s) s) in *. clearbody s1.
  destruct s1 as [|c s1]; [left; rewrite app_nil_r in E1; subst; apply spaces_b; exact S1|]. right.
  assert (N1 : ~ In NUL (c :: s1)) by (rewrite E1, not_in_app in N; tauto).
  destruct (Ascii.eqb_spec c EQ) as [->|CE].
  { right. right. exists (s ++ [NUL]). rewrite E1, <- app_assoc. cbn [app]. rewrite kv_no_key by (apply spaces_b; exact S1).
    split; [reflexivity|]. repeat (rewrite !app_length; cbn [length]). lia. }
  destruct (span_split wordc (c :: s1)) as (k & EK & E2 & K & D2). set (s2 := skipn (span wordc (c :: s1)) (c :: s1)) in *. clearbody s2.
  assert (CW : wordc c = true).
  { unfold wordc. rewrite not_inset_cons, inset_app, D1. destruct (Ascii.eqb_spec c NUL) as [->|]; [elim N1; left; reflexivity|].
    cbn. destruct (Ascii.eqb_spec c EQ); [contradiction|reflexivity]. }
  assert (K0 : k <> []) by (rewrite <- EK; cbn [span]; rewrite CW; discriminate). clear EK CW.
  rewrite E2 in E1, N1. clear E2 CE D1 c s1. rewrite not_in_app in N1. destruct N1 as [Nk N2].
  destruct (span_split (inset DELIMS) s2) as (sp2 & _ & E3 & S2 & D3). set (s3 := skipn (span (inset DELIMS) s2) s2) in *. clearbody s3.
  rewrite E3 in E1, N2, D2. clear E3 s2. rewrite not_in_app in N2. destruct N2 as [_ N3].
  assert (BAD : forall c r, s3 ++ [NUL] = c :: r -> Ascii.eqb c EQ = false ->
     exists b, get_kv (s ++ [NUL]) = Ok ((- EINVAL)%Z, b, None) /\ length b = length s + 1).
  { intros c r Ec CE. exists (s ++ [NUL]). split; [|rewrite app_length; reflexivity].
    rewrite E1, <- !app_assoc, Ec, key_then; auto.
    - rewrite CE. reflexivity.
    - destruct s3 as [|x s3]; injection Ec as <- _; [reflexivity|exact D3].
    - destruct sp2 as [|x sp2]; [left|right; discriminate]. cbn [app] in D2. destruct s3 as [|y s3]; injection Ec as <- _; [reflexivity|exact D2]. }
  destruct s3 as [|c s4]; [right; right; apply (BAD NUL []); reflexivity|].
  destruct (Ascii.eqb_spec c EQ) as [->|CE]; [|right; right; apply (BAD c (s4 ++ [NUL])); [reflexivity|apply Ascii.eqb_neq; exact CE]].
  clear BAD D3 D2. assert (N4 : ~ In NUL s4) by (intro X; apply N3; right; exact X). clear N3.
  assert (Z : get_kv (s ++ [NUL]) = kv_value ((sp1 ++ k ++ NUL :: cut sp2) ++ s4 ++ [NUL]) (length sp1) (length sp1 + length k + length sp2 + 1)).
  { rewrite E1. replace ((sp1 ++ k ++ sp2 ++ EQ :: s4) ++ [NUL]) with (sp1 ++ k ++ sp2 ++ EQ :: s4 ++ [NUL]) by (rewrite <- !app_assoc; reflexivity).
    rewrite key_then by auto. rewrite Ascii.eqb_refl. f_equal. rewrite <- !app_assoc. reflexivity. }
  assert (LP : length sp1 + length k + length sp2 + 1 = length (sp1 ++ k ++ NUL :: cut sp2)).
  { repeat (rewrite !app_length; cbn [length]). rewrite cut_length. lia. }
  assert (LS : length s = length (sp1 ++ k ++ NUL :: cut sp2) + length s4).
  { rewrite <- LP, E1. repeat (rewrite !app_length; cbn [length]). lia. }
  set (pre := sp1 ++ k ++ NUL :: cut sp2) in *.
  destruct (span_split (inset DELIMS) s4) as (sp3 & _ & E5 & S3 & D5). set (s5 := skipn (span (inset DELIMS) s4) s4) in *. clearbody s5.
  destruct s5 as [|c s6].
  { left. rewrite app_nil_r in E5. exists sp1, k, sp2, sp3. subst s4. rewrite !spaces_b. repeat (split; [assumption || (apply key_word_b; auto)|]). exact E1. }
  right. rewrite E5 in N4. rewrite not_in_app in N4. destruct N4 as [_ N5].
  assert (SP : spaces sp1 /\ spaces sp2 /\ spaces sp3 /\ key_word k) by (rewrite !spaces_b, key_word_b by exact Nk; auto).
  destruct (inset QUOTES c) eqn:Q.
  - assert (N6 : ~ In NUL s6) by (intro X; apply N5; right; exact X).
    destruct (index c s6) as [n|] eqn:I.
    + apply index_split in I as [E6 V]. set (v := firstn n s6) in *. set (s7 := skipn (S n) s6) in *. clearbody v s7.
      rewrite E6, not_in_app in N6. destruct N6 as [Nv N7].
      destruct (span_split (inset DELIMS) s7) as (sp4 & _ & E7 & S4 & D7). set (s8 := skipn (span (inset DELIMS) s7) s7) in *. clearbody s8.
      destruct s8 as [|d s8].
      * left. exists k, v, sp1, sp2, sp3, sp4. rewrite app_nil_r in E7. destruct SP as (P1 & P2 & P3 & P4).
        split; [exact P1|]. split; [exact P2|]. split; [exact P3|]. split; [apply spaces_b; exact S4|]. split; [exact P4|].
        right. exists c. split; [apply quote_b; exact Q|]. split; [exact V|]. rewrite E1, E5, E6, E7. reflexivity.
      * right. rewrite Z, E5, E6, E7.
        replace (pre ++ (sp3 ++ c :: v ++ c :: sp4 ++ d :: s8) ++ [NUL]) with (pre ++ sp3 ++ c :: v ++ c :: sp4 ++ d :: s8 ++ [NUL]) by (repeat (rewrite <- !app_assoc; cbn [app]); reflexivity).
        rewrite value_quoted; auto. destruct (Ascii.eqb_spec d NUL) as [->|_].
        { elim N7. rewrite E7. right. apply in_or_app. right. left. reflexivity. }
        eexists. split; [reflexivity|]. rewrite LS, E5, E6, E7. repeat (rewrite !app_length; cbn [length]). lia.
    + right. apply index_none in I. rewrite Z, E5.
      replace (pre ++ (sp3 ++ c :: s6) ++ [NUL]) with (pre ++ sp3 ++ c :: s6 ++ [NUL]) by (repeat (rewrite <- !app_assoc; cbn [app]); reflexivity).
      rewrite value_unclosed; auto. eexists. split; [reflexivity|]. rewrite LS, E5. repeat (rewrite !app_length; cbn [length]). lia.
  - destruct (span_split valc (c :: s6)) as (v & EV & E6 & V & D6). set (s7 := skipn (span valc (c :: s6)) (c :: s6)) in *. clearbody s7.
    assert (VC : valc c = true). { apply valc_cases. split; [exact D5|]. split; [exact Q|]. intros ->. apply N5. left. reflexivity. }
    assert (V0 : v <> []) by (rewrite <- EV; cbn [span]; rewrite VC; discriminate). clear EV VC.
    rewrite E6 in E5, N5. rewrite not_in_app in N5. destruct N5 as [Nv N7].
    destruct (span_split (inset DELIMS) s7) as (sp4 & _ & E7 & S4 & D7). set (s8 := skipn (span (inset DELIMS) s7) s7) in *. clearbody s8.
    destruct s8 as [|d s8].
    + left. exists k, v, sp1, sp2, sp3, sp4. rewrite app_nil_r in E7. destruct SP as (P1 & P2 & P3 & P4).
      split; [exact P1|]. split; [exact P2|]. split; [exact P3|]. split; [apply spaces_b; exact S4|]. split; [exact P4|].
      left. split; [apply plain_value_b; auto|]. rewrite E1, E5, E7. reflexivity.
    + right. rewrite Z, E5, E7.
      replace (pre ++ (sp3 ++ v ++ sp4 ++ d :: s8) ++ [NUL]) with (pre ++ sp3 ++ v ++ sp4 ++ d :: (s8 ++ [NUL])) by (repeat (rewrite <- !app_assoc; cbn [app]); reflexivity).
      assert (Nd : d <> NUL). { intros ->. apply N7. rewrite E7. apply in_or_app. right. left. reflexivity. }
      destruct (value_plain pre sp3 v sp4 d (s8 ++ [NUL]) (length sp1) (length sp1 + length k + length sp2 + 1)) as (b' & H1 & H2 & _); auto.
      { destruct sp4; [left|right; discriminate]. cbn [app] in E7. subst s7. exact D6. }
      { intros; contradiction. }
      apply Ascii.eqb_neq in Nd. rewrite Nd in H1. exists b'. split; [exact H1|]. rewrite H2, LS, E5, E7. repeat (rewrite !app_length; cbn [length]). lia.
Qed.
