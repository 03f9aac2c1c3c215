From Verif Require Import Base Kvs_Model Tok_Model UtilStr_Model BaseUtil_Model UbrKey_Model UbrKey_Spec UbrKey_Proofs UbrDb_Model UbrPerm_Spec UbrPerm_Proofs UbrRec_Model UbrRec_Proofs UbrScan_Model UbrScan_Spec UbrScan_Proofs Lvm_Model Lvm_Spec Lvm_Proofs Dm_Model Dm_Spec.
Local Open Scope nat_scope.

(* Numbers *)
Lemma digit_of_spec base c v : (base <= 16)%N -> (digit_of base c = Some v <-> digit base c v).
Proof.
  intros Hb. unfold digit. split.
  - intros H.
    assert (G : forall c, match digit_of 16 c with Some v => nth_error (B "0123456789abcdef") (N.to_nat v) = Some c \/ nth_error (B "0123456789ABCDEF") (N.to_nat v) = Some c | None => True end).
    { clear. intros [[] [] [] [] [] [] [] []]; vm_compute; auto. }
    specialize (G c). revert H G. unfold digit_of. cbv zeta. match goal with |- context [(?x <? base)%N] => generalize x end. intros x H G.
    destruct (x <? base)%N eqn:E; [|discriminate]. injection H as <-. assert (L : (x <? 16)%N = true) by lia. rewrite L in G. split; [lia|exact G].
  - intros (L & H). assert (V : In v [0;1;2;3;4;5;6;7;8;9;10;11;12;13;14;15]%N) by (assert (v < 16)%N by lia; cbn [In]; lia).
    assert (G : digit_of 16 c = Some v).
    { cbn [In] in V. decompose [or] V; try contradiction; subst v; destruct H as [H|H]; cbn in H; injection H as <-; reflexivity. }
    revert G. unfold digit_of. cbv zeta. match goal with |- context [(?x <? base)%N] => generalize x end. intros x G.
    destruct (x <? 16)%N; [|discriminate]. injection G as ->. replace (v <? base)%N with true by lia. reflexivity.
Qed.
Lemma digits_snoc base s : forall acc n c, digits_of base acc s = (n, []) ->
  digits_of base acc (s ++ [c]) = match digit_of base c with Some v => ((base * n + v)%N, []) | None => (n, [c]) end.
Proof.
  induction s as [|x s IH]; intros acc n c H; cbn [digits_of app] in *.
  - injection H as ->. destruct (digit_of base c); reflexivity.
  - destruct (digit_of base x); [exact (IH _ _ _ H)|discriminate].
Qed.
Lemma digits_prefix base s : forall acc n c, digits_of base acc (s ++ [c]) = (n, []) -> exists m v, digits_of base acc s = (m, []) /\ digit_of base c = Some v /\ n = (base * m + v)%N.
Proof.
  induction s as [|x s IH]; intros acc n c H; cbn [digits_of app] in *.
  - destruct (digit_of base c) as [v|]; [|discriminate]. injection H as <-. exists acc, v. auto.
  - destruct (digit_of base x); [exact (IH _ _ _ H)|discriminate].
Qed.
Lemma numeral_digits base s n : (base <= 16)%N -> (numeral base s n <-> s <> [] /\ digits_of base 0 s = (n, [])).
Proof.
  intros Hb. split.
  - induction 1 as [c v D|s n c v _ (N & IH) D].
    + split; [discriminate|]. cbn [digits_of]. rewrite (proj2 (digit_of_spec base c v Hb) D). rewrite N.mul_0_r. reflexivity.
    + split; [destruct s; discriminate|]. rewrite (digits_snoc _ _ _ _ _ IH), (proj2 (digit_of_spec base c v Hb) D). reflexivity.
  - intros (N & H). revert n N H. induction s as [|c s IH] using rev_ind; intros n N H; [contradiction|].
    destruct (digits_prefix _ _ _ _ _ H) as (m & v & E & D & ->). apply (digit_of_spec base c v Hb) in D.
    destruct s as [|x s].
    + cbn [digits_of] in E. injection E as <-. rewrite N.mul_0_r, N.add_0_l. constructor. exact D.
    + constructor; [|exact D]. apply IH; [discriminate|exact E].
Qed.
(* the conversion without blanks and sign *)
Definition plain (t : bytes) : option (N * bytes) :=
  let (base, t) := base_of t in
  match match t with c :: _ => digit_of base c | [] => None end with None => None | Some _ => Some (digits_of base 0 t) end.
Lemma digit_zero c : digit_of 10 c = Some 0%N \/ Ascii.eqb c "0" = false.
Proof. destruct (Ascii.eqb c "0") eqn:E; [left; apply Ascii.eqb_eq in E; subst c; reflexivity|right; reflexivity]. Qed.
Lemma numeral_first base s n : (base <= 16)%N -> numeral base s n -> match s with c :: _ => digit_of base c <> None | [] => False end.
Proof.
  intros Hb H. apply (numeral_digits base s n Hb) in H. destruct H as (N & H). destruct s as [|c s]; [contradiction|]. cbn [digits_of] in H. destruct (digit_of base c); [discriminate|discriminate H].
Qed.
Lemma plain_number t v : number_text t v <-> plain t = Some (v, []).
Proof.
  assert (Num : forall base s, (base <= 16)%N -> match match s with c :: _ => digit_of base c | [] => None end with None => None | Some _ => Some (digits_of base 0 s) end = Some (v, []) <-> numeral base s v).
  { intros base s Hb. rewrite (numeral_digits base s v Hb). split.
    - destruct s as [|c s]; [discriminate|]. destruct (digit_of base c); [|discriminate]. intros H. injection H as H. split; [discriminate|exact H].
    - intros (N & H). destruct s as [|c s]; [contradiction|]. destruct (digit_of base c) eqn:D; [rewrite H; reflexivity|]. cbn [digits_of] in H. rewrite D in H. discriminate. }
  assert (H0 : hd_error t <> Some "0"%char -> base_of t = (10%N, t)).
  { intros H. destruct t as [|a [|b [|c r]]]; cbn [base_of]; try reflexivity; (destruct (Ascii.eqb a "0") eqn:E; [apply Ascii.eqb_eq in E; subst a; destruct (H eq_refl)|reflexivity]). }
  unfold plain, number_text. split.
  - intros [(N & H)|[(N & H)|(r & [-> | ->] & N)]].
    + rewrite (H0 H). apply Num; [lia|exact N].
    + assert (E : base_of t = (8%N, t)).
      { destruct t as [|a t]; [discriminate|]. injection H as ->. destruct t as [|b [|c r]]; cbn [base_of]; try reflexivity. change (Ascii.eqb "0" "0") with true. cbv iota.
        apply (numeral_digits 8 _ _ ltac:(lia)) in N. destruct N as (_ & N). cbn [digits_of] in N. change (digit_of 8 "0") with (Some 0%N) in N. cbv iota in N.
        destruct (Ascii.eqb b "x") eqn:E1; [apply Ascii.eqb_eq in E1; subst b; discriminate N|]. destruct (Ascii.eqb b "X") eqn:E2; [apply Ascii.eqb_eq in E2; subst b; discriminate N|]. reflexivity. }
      rewrite E. apply Num; [lia|exact N].
    + pose proof (numeral_first 16 r v ltac:(lia) N) as F. destruct r as [|c r]; [contradiction|]. change (B "0x" ++ c :: r) with ("0" :: "x" :: c :: r)%char. cbn [base_of].
      change (Ascii.eqb "0" "0") with true. change (Ascii.eqb "x" "x") with true. cbn [orb andb]. destruct (digit_of 16 c) as [q|] eqn:D; [|contradiction]. rewrite D. 
      apply (numeral_digits 16 _ _ ltac:(lia)) in N. rewrite (proj2 N). reflexivity.
    + pose proof (numeral_first 16 r v ltac:(lia) N) as F. destruct r as [|c r]; [contradiction|]. change (B "0X" ++ c :: r) with ("0" :: "X" :: c :: r)%char. cbn [base_of].
      change (Ascii.eqb "0" "0") with true. change (Ascii.eqb "X" "x") with false. change (Ascii.eqb "X" "X") with true. cbn [orb andb]. destruct (digit_of 16 c) as [q|] eqn:D; [|contradiction]. rewrite D.
      apply (numeral_digits 16 _ _ ltac:(lia)) in N. rewrite (proj2 N). reflexivity.
  - destruct t as [|a t]; [discriminate|]. destruct (Ascii.eqb a "0") eqn:E.
    2:{ assert (Na : hd_error (a :: t) <> Some "0"%char) by (cbn; intros X; injection X as ->; discriminate E). rewrite (H0 Na). intros H. apply (Num 10%N (a :: t) ltac:(lia)) in H. left. split; [exact H|exact Na]. }
    apply Ascii.eqb_eq in E. subst a.
    assert (Oct : base_of ("0"%char :: t) = (8%N, "0"%char :: t) \/ exists b c r, t = b :: c :: r /\ (b = "x"%char \/ b = "X"%char) /\ base_of ("0"%char :: t) = (16%N, c :: r)).
    { destruct t as [|b [|c r]]; cbn [base_of]; try (left; reflexivity). change (Ascii.eqb "0" "0") with true. cbv iota.
      destruct (Ascii.eqb b "x") eqn:E1; [apply Ascii.eqb_eq in E1|destruct (Ascii.eqb b "X") eqn:E2; [apply Ascii.eqb_eq in E2|left; reflexivity]];
      destruct (digit_of 16 c); cbn [orb andb]; auto; right; exists b, c, r; auto. }
    destruct Oct as [E|(b & c & r & -> & Hx & E)]; rewrite E; intros H; [apply (Num 8%N ("0"%char :: t) ltac:(lia)) in H|apply (Num 16%N (c :: r) ltac:(lia)) in H].
    + right. left. split; [exact H|reflexivity].
    + right. right. exists (c :: r). split; [|exact H]. destruct Hx as [-> | ->]; [left|right]; reflexivity.
Qed.
Lemma strtoul_plain s : let t := skipn (span isspace s) s in
  let nt := match t with
            | c :: t' => if Ascii.eqb c "-"%char then (true, t') else if Ascii.eqb c "+"%char then (false, t') else (false, t)
            | [] => (false, t) end in
  strtoul0 s = match plain (snd nt) with
               | None => (0%N, false, s)
               | Some (v, p) => if (ULLONG_MAX <? v)%N then (ULLONG_MAX, true, p) else (if fst nt then wrap64 (2 ^ 64 - v) else v, false, p)
               end.
Proof.
  intros t nt. unfold strtoul0, plain. fold t. change (match t with [] => (false, t) | _ => _ end) with nt. destruct nt as (neg, t1). cbn [fst snd].
  destruct (base_of t1) as (b, t2). destruct (match t2 with c :: _ => digit_of b c | [] => None end); [|reflexivity]. destruct (digits_of b 0 t2) as (v, p). reflexivity.
Qed.
Lemma plain_start t x : plain t = Some x -> match t with c :: _ => isspace c = false /\ Ascii.eqb c "-" = false /\ Ascii.eqb c "+" = false | [] => False end.
Proof.
  unfold plain. destruct t as [|c t]; [discriminate|]. intros H.
  assert (D : digit_of 10 c <> None \/ c = "0"%char).
  { destruct (Ascii.eqb c "0") eqn:E; [right; apply Ascii.eqb_eq; exact E|]. left. assert (B0 : base_of (c :: t) = (10%N, c :: t)) by (destruct t as [|b [|e r]]; cbn [base_of]; rewrite E; reflexivity).
    rewrite B0 in H. destruct (digit_of 10 c); discriminate. }
  clear H. destruct D as [D | ->]; [|vm_compute; auto]. revert D. destruct c as [[] [] [] [] [] [] [] []]; vm_compute; intros D; try (destruct (D eq_refl)); auto.
Qed.
Lemma blank_space c : isspace c = true <-> blank c.
Proof.
  unfold blank. split.
  - destruct c as [[] [] [] [] [] [] [] []]; vm_compute; intros H; try discriminate H; auto 10.
  - cbn [map In]. intros H. decompose [or] H; try contradiction; subst c; reflexivity.
Qed.
Lemma span_blank sp t : Forall blank sp -> match t with c :: _ => isspace c = false | [] => True end -> span isspace (sp ++ t) = length sp.
Proof.
  intros H Ht. induction H as [|c sp Hc _ IH]; cbn [app length].
  - destruct t as [|c t]; [reflexivity|]. cbn [span]. rewrite Ht. reflexivity.
  - cbn [span]. rewrite (proj2 (blank_space c) Hc), IH. reflexivity.
Qed.
Lemma span_all (s : bytes) : Forall blank (firstn (span isspace s) s).
Proof. induction s as [|c s IH]; cbn [span]; [constructor|]. destruct (isspace c) eqn:E; [|constructor]. cbn [firstn]. constructor; [apply blank_space; exact E|exact IH]. Qed.
Lemma cookie_strtoul s n : (0 < n)%N -> (cookie_text s n <-> strtoul0 s = (n, false, [])).
Proof.
  intros Hn. rewrite strtoul_plain. cbv zeta. split.
  - intros (sp & sign & t & v & -> & Hs & Ht & Hv & Hsg). apply plain_number in Ht. pose proof (plain_start t _ Ht) as St. destruct t as [|c t]; [contradiction|]. destruct St as (S1 & S2 & S3).
    assert (Sk : skipn (span isspace (sp ++ sign ++ c :: t)) (sp ++ sign ++ c :: t) = sign ++ c :: t).
    { rewrite span_blank; [rewrite skipn_app, skipn_all, Nat.sub_diag; reflexivity|exact Hs|]. destruct Hsg as [([-> | ->] & _)|(-> & _)]; [exact S1|reflexivity|reflexivity]. }
    rewrite Sk. assert (Hv' : (ULLONG_MAX <? v)%N = false) by (unfold ULLONG_MAX; lia).
    destruct Hsg as [([-> | ->] & ->)|(-> & ->)].
    + cbn [app]. rewrite S2, S3. cbn [fst snd]. rewrite Ht, Hv'. reflexivity.
    + change (B "+" ++ c :: t) with ("+"%char :: c :: t). cbv iota. change (Ascii.eqb "+" "-") with false. change (Ascii.eqb "+" "+") with true. cbv iota. cbn [fst snd]. rewrite Ht, Hv'. reflexivity.
    + change (B "-" ++ c :: t) with ("-"%char :: c :: t). cbv iota. change (Ascii.eqb "-" "-") with true. cbv iota. cbn [fst snd]. rewrite Ht, Hv'. unfold wrap64. reflexivity.
  - intros H. set (sp := firstn (span isspace s) s). set (t := skipn (span isspace s) s) in *.
    assert (Es : s = sp ++ t) by (symmetry; apply firstn_skipn).
    assert (Goal2 : forall sign r b, t = sign ++ r -> (b = false /\ (sign = [] \/ sign = B "+") \/ b = true /\ sign = B "-") ->
      match plain r with None => (0%N, false, s) | Some (v, p) => if (ULLONG_MAX <? v)%N then (ULLONG_MAX, true, p) else (if b then wrap64 (2 ^ 64 - v) else v, false, p) end = (n, false, []) -> cookie_text s n).
    { intros sign r b Et Hb E. destruct (plain r) as [(v, p)|] eqn:P; [|injection E as <- _; lia].
      destruct (ULLONG_MAX <? v)%N eqn:L; [discriminate|]. injection E as E ->. exists sp, sign, r, v. split; [rewrite Es, Et; reflexivity|]. split; [apply span_all|].
      split; [apply plain_number; exact P|]. split; [unfold ULLONG_MAX in L; lia|]. destruct Hb as [(-> & Hb)|(-> & Hb)]; [left|right]; (split; [exact Hb|symmetry; exact E]). }
    destruct t as [|c t'] eqn:Et.
    + exact (Goal2 [] [] false eq_refl (or_introl (conj eq_refl (or_introl eq_refl))) H).
    + destruct (Ascii.eqb c "-") eqn:E1; [|destruct (Ascii.eqb c "+") eqn:E2]; cbn [fst snd] in H.
      * apply Ascii.eqb_eq in E1. subst c. exact (Goal2 (B "-") t' true eq_refl (or_intror (conj eq_refl eq_refl)) H).
      * apply Ascii.eqb_eq in E2. subst c. exact (Goal2 (B "+") t' false eq_refl (or_introl (conj eq_refl (or_intror eq_refl))) H).
      * exact (Goal2 [] (c :: t') false eq_refl (or_introl (conj eq_refl (or_introl eq_refl))) H).
Qed.

(* The database *)
Lemma dm_nul : ~ In NUL DM.
Proof. intros H. cbn in H. decompose [or] H; try discriminate; contradiction. Qed.
Lemma get_reads d u w n c fm x : good_name n c -> ~ In NUL w -> reads d w (canonicalize_key (compose_key (get_spec (u_dev u) w (api_dom n) n c 0 fm None))) x ->
  exists f, kv_get d u w n c 0 fm None = (Some ([x], f), 0%Z).
Proof.
  intros G Hw (o & Ho & Hn & Hr & Hd). exists (r_flags o). unfold kv_get. rewrite (proj1 (good_bad n c) G). unfold cmd_get_key_value. rewrite Ho.
  pose proof (proj1 (may_read_match o w Hn Hw) Hr) as Hr'. unfold granted, read_bit, flag in Hr'. rewrite has_FRG_RD, has_SUB_RD, has_SUP_RD.
  assert (E : match mod_match (r_owner o) w with MOD_NO_MATCH => N.testbit (r_flags o) 5 | MOD_MATCH | MOD_CORE_MATCH => true
     | MOD_SUB_MATCH => N.testbit (r_flags o) 6 | MOD_SUP_MATCH => N.testbit (r_flags o) 7 end = true).
  { revert Hr'; destruct (mod_match (r_owner o) w); auto. }
  rewrite E, Hd. reflexivity.
Qed.
Lemma get_lacks d u w n c fm : lacks d (canonicalize_key (compose_key (get_spec (u_dev u) w (api_dom n) n c 0 fm None))) ->
  fst (kv_get d u w n c 0 fm None) = None.
Proof.
  intros H. unfold kv_get. destruct (_ || _); [reflexivity|]. unfold cmd_get_key_value. destruct (recs d _) as [o|] eqn:E; [|reflexivity].
  rewrite (H o E). match goal with |- context [if ?b then _ else _] => destruct b end; reflexivity.
Qed.
Lemma text_get d u w n c x : good_name n c -> ~ In NUL w -> reads_text d w (record_key u w n c) x -> str_get d u w n c None = Ok (Some x).
Proof.
  intros G Hw (Hx & H). unfold str_get. rewrite <- (own_key u w n c G) in H. destruct (get_reads d u w n c None _ G Hw H) as (f & E). rewrite E. cbn [fst].
  rewrite string_ok by exact Hx. reflexivity.
Qed.
Lemma text_none d u w n c : good_name n c -> lacks d (record_key u w n c) -> str_get d u w n c None = Ok None.
Proof. intros G H. unfold str_get. rewrite <- (own_key u w n c G) in H. rewrite (get_lacks d u w n c None H). reflexivity. Qed.
Lemma le_two x : (x < 65536)%N -> le 2 x = two_bytes x.
Proof.
  intros H. unfold two_bytes. cbn [le]. rewrite (N.mod_small (x / 256)); [reflexivity|]. apply N.div_lt_upper_bound; lia.
Qed.
Lemma unle_two x : (x < 65536)%N -> unle (two_bytes x) = x.
Proof. intros H. rewrite <- le_two by exact H. apply unle2. lia. Qed.
Lemma short_reads d u w c fm x : good_name NS_DEVMOD c -> ~ In NUL w -> (x < 65536)%N ->
  reads d w (canonicalize_key (compose_key (get_spec (u_dev u) w (api_dom NS_DEVMOD) NS_DEVMOD c 0 fm None))) (two_bytes x) -> short_get d u w c fm = Ok (Some x).
Proof.
  intros G Hw Hx H. unfold short_get. destruct (get_reads d u w NS_DEVMOD c fm _ G Hw H) as (f & E). rewrite E. cbn [fst two_bytes length Nat.ltb Nat.leb firstn].
  change [ascii_of_N (x mod 256); ascii_of_N (x / 256)] with (two_bytes x). rewrite unle_two by exact Hx. reflexivity.
Qed.
Lemma short_none d u w c fm : lacks d (canonicalize_key (compose_key (get_spec (u_dev u) w (api_dom NS_DEVMOD) NS_DEVMOD c 0 fm None))) -> short_get d u w c fm = Ok None.
Proof. intros H. unfold short_get. rewrite (get_lacks d u w NS_DEVMOD c fm H). reflexivity. Qed.

Lemma base_is u : record_key u MOD_DM NS_DEVMOD X_COOKIE_BASE = base_key u. Proof. reflexivity. Qed.
Lemma flags_is u : record_key u MOD_DM NS_DEVMOD X_COOKIE_FLAGS = flags_key u. Proof. reflexivity. Qed.
Lemma flags_base u : flags_key u <> base_key u.
Proof. intros H. apply devmod_inj in H. discriminate H. Qed.
Lemma base_good : good_name NS_DEVMOD X_COOKIE_BASE. Proof. apply good; cbn; (exact I || discriminate). Qed.
Lemma flags_good : good_name NS_DEVMOD X_COOKIE_FLAGS. Proof. apply good; cbn; (exact I || discriminate). Qed.

Lemma cookie_lemma d u s : reads_text d DM (cookie_var u) s -> writable d DM (base_key u) -> writable d DM (flags_key u) ->
  (forall n, cookie_text s n -> cookie_value n -> exists d', get_cookie_props d u = Ok (d', 1%Z, (n / 65536)%N) /\ cookie_stored u n d d')
  /\ ((forall n, cookie_text s n -> ~ cookie_value n) -> get_cookie_props d u = Ok (d, (-1)%Z, 0%N)).
Proof.
  intros Hs Wb Wf. unfold get_cookie_props. rewrite (text_get d u MOD_DM NS_UDEV U_COOKIE s); [|apply good; cbn; (exact I || discriminate)|exact dm_nul|exact Hs]. cbn [obind]. split.
  - intros n T V. rewrite (proj1 (cookie_strtoul s n ltac:(unfold cookie_value in V; lia)) T). unfold cookie_value in V.
    replace (n =? 0)%N with false by lia. replace (UINT32_MAX <? n)%N with false by (unfold UINT32_MAX; lia). cbn [orb negb].
    assert (Lf : (n / 65536 < 65536)%N) by (apply N.div_lt_upper_bound; lia). rewrite (N.mod_small (n / 65536)) by exact Lf.
    pose proof (N.mod_lt n 65536 ltac:(lia)) as Lb. rewrite !le_two by assumption.
    destruct (allowed_lemma d u MOD_DM NS_DEVMOD X_COOKIE_BASE (Some (two_bytes (n mod 65536))) FL_ALIGN base_good dm_nul Wb) as (d1 & E1 & R1 & _ & F1).
    rewrite E1. cbn [obind]. change (0 <? 0)%Z with false. cbv iota. rewrite base_is in *.
    assert (Same : recs d1 (flags_key u) = recs d (flags_key u)). { apply F1; [apply flags_base|intros X; discriminate X]. }
    assert (Wf1 : writable d1 DM (flags_key u)) by (intros o Ho; apply Wf; rewrite <- Same; exact Ho).
    destruct (allowed_lemma d1 u MOD_DM NS_DEVMOD X_COOKIE_FLAGS (Some (two_bytes (n / 65536))) (N.lor FL_ALIGN FL_COOKIE) flags_good dm_nul Wf1) as (d2 & E2 & R2 & A2 & F2).
    rewrite E2. cbn [obind]. change (0 <? 0)%Z with false. cbv iota. rewrite flags_is in *. exists d2. split; [reflexivity|].
    split; [|split; [exact R2|split]].
    + rewrite F2; [exact R1|intros X; symmetry in X; exact (flags_base u X)|intros X; discriminate X].
    + intros o Ho. apply A2; [rewrite Same; exact Ho|reflexivity].
    + intros x Hx. cbn [In] in Hx. rewrite F2; [apply F1|..].
      * intros ->. apply Hx. auto.
      * intros ->. left. reflexivity.
      * intros ->. apply Hx. auto.
      * intros ->. destruct Hx. auto.
  - intros H. destruct (strtoul0 s) as ((val, err), p) eqn:E. destruct (err || (val =? 0)%N || negb (match p with [] => true | _ => false end) || (UINT32_MAX <? val)%N) eqn:C; [reflexivity|].
    destruct err; [discriminate C|]. destruct p; [|cbn in C; rewrite orb_true_r in C; discriminate C]. cbn [orb negb] in C. unfold UINT32_MAX in C.
    exfalso. apply (H val); [apply (cookie_strtoul s val); [lia|exact E]|unfold cookie_value; lia].
Qed.
Lemma no_cookie_lemma d u : lacks d (cookie_var u) -> writable d DM (flags_key u) ->
  exists d', get_cookie_props d u = Ok (d', 0%Z, 0%N) /\ no_cookie_stored u d d'.
Proof.
  intros Hc Wf. unfold get_cookie_props. rewrite (text_none d u MOD_DM NS_UDEV U_COOKIE); [|apply good; cbn; (exact I || discriminate)|exact Hc]. cbn [obind].
  destruct (allowed_lemma d u MOD_DM NS_DEVMOD X_COOKIE_FLAGS None FL_COOKIE flags_good dm_nul Wf) as (d2 & E2 & R2 & A2 & F2).
  rewrite E2. cbn [obind]. change (0 <? 0)%Z with false. cbv iota. rewrite flags_is in *. exists d2. split; [reflexivity|]. split; [exact R2|]. split.
  - intros o Ho. apply A2; [exact Ho|reflexivity].
  - intros x Hx. cbn [In] in Hx. apply F2; [intros ->; apply Hx; auto|intros ->; destruct Hx; auto].
Qed.
Lemma own_reads d w k r : recs d k = Some r -> r_owner r = w -> ~ In NUL w -> forall x, r_data r = [x] -> reads d w k x.
Proof.
  intros E O Nw x D. exists r. split; [exact E|]. rewrite O. split; [exact Nw|]. split; [|exact D]. intros m Hm. rewrite O in Hm. pose proof (stands_fun _ _ _ _ Hm (match_stands w w Nw Nw)) as ->.
  assert (M : mod_match w w = MOD_MATCH \/ mod_match w w = MOD_CORE_MATCH).
  { unfold mod_match. destruct (key_eqb w OWNER_CORE); [right; reflexivity|left]. assert (C : common w w = length w) by (clear; induction w as [|c w IH]; [reflexivity|cbn; rewrite Ascii.eqb_refl, IH; reflexivity]).
    rewrite C. unfold ch. rewrite nth_overflow by lia. reflexivity. }
  destruct M as [-> | ->]; exact I.
Qed.
(* Completing *)
Lemma sem_key_is b : (b < 65536)%N -> N.lor (N.shiftl 3405 16) b = (223150080 + b)%N.
Proof.
  intros H. change (N.shiftl 3405 16) with (3405 * 2 ^ 16)%N. rewrite <- N.lxor_lor, <- N.add_nocarry_lxor.
  - lia.
  - apply N.bits_inj. intros i. rewrite N.land_spec, N.bits_0. destruct (N.lt_ge_cases i 16) as [L|L]; [rewrite N.mul_pow2_bits_low by exact L; reflexivity|].
    destruct (N.eq_dec b 0) as [->|Nb]; [rewrite N.bits_0; apply andb_false_r|].
    rewrite (N.bits_above_log2 b i); [apply andb_false_r|]. apply N.lt_le_trans with 16%N; [|exact L]. apply N.log2_lt_pow2; [lia|exact H].
  - apply N.bits_inj. intros i. rewrite N.land_spec, N.bits_0. destruct (N.lt_ge_cases i 16) as [L|L]; [rewrite N.mul_pow2_bits_low by exact L; reflexivity|].
    destruct (N.eq_dec b 0) as [->|Nb]; [rewrite N.bits_0; apply andb_false_r|].
    rewrite (N.bits_above_log2 b i); [apply andb_false_r|]. apply N.lt_le_trans with 16%N; [|exact L]. apply N.log2_lt_pow2; [lia|exact H].
Qed.
Lemma complete_lemma s u w n sub : cookie_value n -> reads (sc_db s) DM (base_key u) (two_bytes (n mod 65536)) ->
  (forall i, sem_get w (sem_key n) = Some i -> sem_ctl w i = true -> sem_op w i = true ->
     dm_action_current s u w sub = let! (s, r) := sub s in Ok (s, if (r <? 0)%Z then (-1)%Z else 0%Z, [i]))
  /\ ((forall i, sem_get w (sem_key n) = Some i -> sem_ctl w i = false \/ sem_op w i = false) -> dm_action_current s u w sub = Ok (s, (-1)%Z, [])).
Proof.
  intros V H. pose proof (N.mod_lt n 65536 ltac:(lia)) as Lb. unfold dm_action_current. 
  rewrite (short_reads (sc_db s) u MOD_DM X_COOKIE_BASE None (n mod 65536) base_good dm_nul Lb) by (rewrite own_key by exact base_good; exact H). cbn [obind].
  unfold udevcomplete. rewrite sem_key_is by exact Lb. change (223150080 + n mod 65536)%N with (sem_key n). split.
  - intros i -> -> ->. cbn [negb]. reflexivity.
  - intros G. destruct (sem_get w (sem_key n)) as [i|]; [|reflexivity]. destruct (G i eq_refl) as [-> | ->]; [reflexivity|]. destruct (sem_ctl w i); reflexivity.
Qed.
Lemma uncompleted_lemma s u w sub : lacks (sc_db s) (base_key u) ->
  dm_action_current s u w sub = let! (s, r) := sub s in Ok (s, if (r <? 0)%Z then (-1)%Z else 0%Z, []).
Proof. intros H. unfold dm_action_current. rewrite short_none by (rewrite own_key by exact base_good; exact H). reflexivity. Qed.

(* Ready states *)
Definition ready_fit (d : db) (u : ucmd) : Prop :=
  forall o, recs d (ready_key (uid u)) = Some o -> ~ In NUL (r_owner o) /\ may_write o DM /\ may_write o LVM /\ state_record o.
Lemma ready_record_fit w o : (w = DM \/ w = LVM) -> r_owner o = w -> r_flags o = 1770%N -> (exists x, r_data o = [x] /\ length x = 4) ->
  ~ In NUL (r_owner o) /\ may_write o DM /\ may_write o LVM /\ state_record o.
Proof.
  intros Hw O F D. assert (No : ~ In NUL (r_owner o)) by (rewrite O; destruct Hw as [-> | ->]; [exact dm_nul|exact lvm_nul]).
  split; [exact No|]. split; [|split].
  - apply (may_write_match o DM No dm_nul). rewrite O. destruct Hw as [-> | ->]; match goal with |- granted _ ?t => let v := eval vm_compute in t in change t with v end; cbn [granted]; try exact I; unfold flag; rewrite F; reflexivity.
  - apply (may_write_match o LVM No lvm_nul). rewrite O. destruct Hw as [-> | ->]; match goal with |- granted _ ?t => let v := eval vm_compute in t in change t with v end; cbn [granted]; try exact I; unfold flag; rewrite F; reflexivity.
  - unfold state_record, flag. rewrite F. do 3 (split; [reflexivity|]). exact D.
Qed.
Lemma state_step s u w n : (w = DM \/ w = LVM) -> (n <= 8)%N -> may_set_ready (sc_phase s) -> knows_ready s u -> (stored (sc_db s) (ready_key (uid u)) <= 8)%N -> ready_fit (sc_db s) u ->
  (n = stored (sc_db s) (ready_key (uid u)) \/ ready_move (stored (sc_db s) (ready_key (uid u))) n) ->
  exists s', set_ready s u w n false = Ok (s', 0%Z) /\ knows_ready s' u /\ stored (sc_db s') (ready_key (uid u)) = n /\ sc_phase s' = sc_phase s /\ ready_fit (sc_db s') u
    /\ (forall x, ~ In x [ready_key (uid u); "~"%char :: ready_key (uid u)] -> recs (sc_db s') x = recs (sc_db s) x).
Proof.
  intros Hw Hn P K L F M. assert (Ks : sc_ready s = stored (sc_db s) (ready_key (uid u))) by exact K. assert (Nw : no_nul w) by (destruct Hw as [-> | ->]; [exact dm_nul|exact lvm_nul]).
  destruct (set_ready_lemma s u w n false Hn ltac:(lia)) as (_ & L2 & _ & L4).
  destruct (N.eq_dec n (sc_ready s)) as [E|Ne].
  - exists s. split; [exact (L2 P E)|]. split; [exact K|]. split; [lia|]. split; [reflexivity|]. split; [exact F|]. reflexivity.
  - destruct M as [M|M]; [lia|]. rewrite <- Ks in M. destruct (L4 P Ne M) as (d' & E & W). exists (Scan d' (sc_phase s) n (sc_reserved s)).
    assert (Wr : (check_kv_wr_allowed (recs (sc_db s) (ready_key (dev_id u))) w <? 0)%Z = false).
    { destruct (recs (sc_db s) (ready_key (dev_id u))) as [o|] eqn:Eo; [|reflexivity]. destruct (F o Eo) as (No & M1 & M2 & _).
      apply (proj1 (check_write o w No Nw)). destruct Hw as [-> | ->]; assumption. }
    rewrite E, Wr. split; [reflexivity|]. cbn [sc_db sc_phase].
    pose proof (stored_written _ _ _ _ _ _ _ (N.le_lt_trans _ _ 256 Hn eq_refl) W) as St. change (state_key u K_READY) with (ready_key (uid u)) in St.
    split; [unfold knows_ready; cbn [sc_ready sc_db]; change (dev_id u) with (uid u); lia|]. split; [exact St|]. split; [reflexivity|].
    destruct W as (W1 & W2 & W3). change (state_key u K_READY) with (ready_key (uid u)) in *. split.
    + intros o Ho. rewrite W1 in Ho. injection Ho as <-. apply (ready_record_fit w); [exact Hw|reflexivity|reflexivity|]. exists (le 4 n). split; [reflexivity|apply le_length].
    + intros x Hx. apply W3; intros ->; apply Hx; cbn; auto.
Qed.
(* what a cookie leaves for submodules *)
Definition flags_at (d : db) (u : ucmd) (cookie : option N) : Prop :=
  match cookie with
  | Some n => recs d (flags_key u) = Some (Rec (u_seq u) 75 (u_gen u) DM [two_bytes (n / 65536)])
  | None => recs d (flags_key u) = Some (Rec (u_seq u) 74 (u_gen u) DM [])
  end.
Lemma flags_lvm d u cookie : flags_at d u cookie -> match cookie with Some n => cookie_value n | None => True end ->
  short_get d u MOD_LVM X_COOKIE_FLAGS (Some MOD_DM) = Ok (match cookie with Some n => Some (n / 65536)%N | None => None end).
Proof.
  intros H V. destruct cookie as [n|]; cbn [flags_at] in H.
  - apply (short_reads d u MOD_LVM X_COOKIE_FLAGS (Some MOD_DM)); [exact flags_good|exact lvm_nul|unfold cookie_value in V; apply N.div_lt_upper_bound; lia|].
    rewrite foreign_key. change (devmod_key (uid u) MOD_DM X_COOKIE_FLAGS) with (flags_key u). eexists. split; [exact H|]. split; [exact dm_nul|]. split; [|reflexivity].
    apply may_read_match; [exact dm_nul|exact lvm_nul|]. vm_compute. reflexivity.
  - apply short_none. rewrite foreign_key. intros o Ho. change (devmod_key (uid u) MOD_DM X_COOKIE_FLAGS) with (flags_key u) in Ho. rewrite H in Ho. injection Ho as <-. reflexivity.
Qed.
Lemma props_lemma d u cookie susp : event d u cookie susp -> writable d DM (base_key u) -> writable d DM (flags_key u) ->
  exists d', get_cookie_props d u = Ok (d', match cookie with Some _ => 1%Z | None => 0%Z end, match cookie with Some n => (n / 65536)%N | None => 0%N end)
    /\ flags_at d' u cookie /\ (forall x, ~ In x [base_key u; flags_key u; "~"%char :: flags_key u] -> recs d' x = recs d x).
Proof.
  intros (E & _) Wb Wf. destruct cookie as [n|].
  - destruct E as (t & Ht & T & V). destruct (proj1 (cookie_lemma d u t Ht Wb Wf) n T V) as (d' & E & _ & C2 & _ & C4). exists d'. split; [exact E|]. split; [exact C2|exact C4].
  - destruct (no_cookie_lemma d u E Wf) as (d' & E' & C2 & _ & C4). exists d'. split; [exact E'|]. split; [exact C2|]. intros x Hx. apply C4. intros X. apply Hx. right. exact X.
Qed.
Lemma flag_bit n i : N.testbit (n / 65536) i = N.testbit n (i + 16).
Proof. change 65536%N with (2 ^ 16)%N. rewrite N.div_pow2_bits. reflexivity. Qed.
Lemma by_cookie_le n : (by_cookie n <= 8)%N /\ (by_cookie n <> 0)%N /\ by_cookie n <> RDY_UNPROCESSED /\ by_cookie n <> RDY_UNCONFIGURED.
Proof. unfold by_cookie, RDY_PRIVATE, RDY_FLAT, RDY_PUBLIC, RDY_UNPROCESSED, RDY_UNCONFIGURED. destruct (N.testbit n 19), (N.testbit n 18); lia. Qed.
Lemma set_by_cookie s u n : set_by_flags s u (n / 65536) = set_ready s u MOD_DM (by_cookie n) false.
Proof. unfold set_by_flags, by_cookie, BIT_OTHER, BIT_DISK. rewrite !flag_bit. change (3 + 16)%N with 19%N. change (2 + 16)%N with 18%N. destruct (N.testbit n 19), (N.testbit n 18); reflexivity. Qed.
Lemma move_from old n : (old <> 0 -> n <> 0 -> n <> RDY_UNPROCESSED -> (n = RDY_UNCONFIGURED -> old = RDY_UNPROCESSED) -> ready_move old n)%N.
Proof. unfold ready_move, RDY_UNDEFINED. intros A C D E. split; [exact C|]. split; [contradiction|]. split; [exact E|contradiction]. Qed.

Lemma ready_le8 n : (n <= 8)%N -> In n [0;1;2;3;4;5;6;7;8]%N.
Proof. intros H. cbn [In]. lia. Qed.
Lemma pre_lemma s u cookie susp synth a sub : prepared s u -> event (sc_db s) u cookie susp ->
  let old := stored (sc_db s) (ready_key (uid u)) in
  match dm_next old cookie synth a susp with
  | None => exists s', dm_scan_pre s u synth a sub = Ok (s', (-1)%Z) /\ recs (sc_db s') (ready_key (uid u)) = recs (sc_db s) (ready_key (uid u))
  | Some n => exists s', dm_scan_pre s u synth a sub = (let! (s, r) := sub s' in Ok (s, if (r <? 0)%Z then (-1)%Z else 0%Z))
      /\ stored (sc_db s') (ready_key (uid u)) = n /\ (n <= 8)%N /\ knows_ready s' u /\ sc_phase s' = sc_phase s /\ ready_fit (sc_db s') u /\ flags_at (sc_db s') u cookie
      /\ (forall x, ~ In x (scan_pre_keys u) -> recs (sc_db s') x = recs (sc_db s) x)
  end.
Proof.
  intros (Wb & Wf & Fit & P & Kn & L8) Ev old. destruct (props_lemma (sc_db s) u cookie susp Ev Wb Wf) as (d1 & E1 & Fl & Fr).
  unfold dm_scan_pre. rewrite E1. cbn [obind]. replace ((match cookie with Some _ => 1%Z | None => 0%Z end <? 0)%Z) with false by (destruct cookie; reflexivity). cbv iota.
  assert (Rk : recs d1 (ready_key (uid u)) = recs (sc_db s) (ready_key (uid u))).
  { apply Fr. cbn [In]. intros X. decompose [or] X; try contradiction; discriminate. }
  assert (Sk : recs d1 (suspended_var u) = recs (sc_db s) (suspended_var u)).
  { apply Fr. cbn [In]. intros X. decompose [or] X; try contradiction; discriminate. }
  destruct Ev as (Ev & Ns & o & Ho & Ho2). 
  rewrite (text_get (sc_db (with_db s d1)) u MOD_DM NS_UDEV U_SUSPENDED susp); [|apply good; cbn; (exact I || discriminate)|exact dm_nul|split; [exact Ns|exists o; split; [exact (eq_trans Sk Ho)|exact Ho2]]]. cbn [obind].
  assert (St1 : stored d1 (ready_key (uid u)) = old) by (unfold stored, old; rewrite Rk; reflexivity).
  assert (Fit1 : ready_fit d1 u) by (intros x Hx; apply Fit; rewrite <- Rk; exact Hx).
  assert (Gr : exists s1, get_ready (with_db s d1) u MOD_DM 0 = Ok (s1, old) /\ knows_ready s1 u /\ sc_db s1 = d1 /\ sc_phase s1 = sc_phase s).
  { destruct (state_loaded_lemma (with_db s d1) u MOD_DM) as (s1 & G & K1 & D1 & P1 & _).
    - destruct Kn as [Kn|Kn]; [left; exact Kn|right]. unfold knows_ready in *. cbn [with_db sc_ready sc_db]. change (dev_id u) with (uid u) in *. rewrite Kn. symmetry. exact St1.
    - intros x Hx. exact (proj2 (proj2 (proj2 (Fit1 x Hx)))).
    - exists s1. change (dev_id u) with (uid u) in G. cbn [with_db sc_db] in G. rewrite St1 in G. split; [exact G|]. split; [exact K1|]. split; [exact D1|exact P1]. }
  destruct Gr as (s1 & G & K1 & D1 & P1). rewrite G. cbn [obind].
  assert (Hc : negb (match cookie with Some _ => 1%Z | None => 0%Z end =? 0)%Z = match cookie with Some _ => true | None => false end) by (destruct cookie; reflexivity). rewrite Hc.
  assert (Ck : (if (match cookie with Some _ => 1%Z | None => 0%Z end =? 0)%Z then None else Some match cookie with Some n => (n / 65536)%N | None => 0%N end) = match cookie with Some n => Some (n / 65536)%N | None => None end) by (destruct cookie; reflexivity).
  rewrite Ck. clear Hc Ck.
  assert (P1' : may_set_ready (sc_phase s1)) by (rewrite P1; exact P).
  assert (L1 : (stored (sc_db s1) (ready_key (uid u)) <= 8)%N) by (rewrite D1, St1; exact L8).
  assert (F1 : ready_fit (sc_db s1) u) by (rewrite D1; exact Fit1).
  assert (Ks1 : sc_ready s1 = old) by (unfold knows_ready in K1; change (dev_id u) with (uid u) in K1; rewrite K1, D1; exact St1).
  (* where no state is written *)
  assert (Stay : forall n, n = old -> exists s', Ok (s1, 0%Z) = Ok (s', 0%Z) /\ stored (sc_db s') (ready_key (uid u)) = n /\ (n <= 8)%N /\ knows_ready s' u /\ sc_phase s' = sc_phase s /\ ready_fit (sc_db s') u /\ flags_at (sc_db s') u cookie
      /\ (forall x, ~ In x (scan_pre_keys u) -> recs (sc_db s') x = recs (sc_db s) x)).
  { intros n ->. exists s1. split; [reflexivity|]. rewrite D1. split; [exact St1|]. split; [exact L8|]. split; [exact K1|]. split; [exact P1|]. split; [exact Fit1|]. split; [exact Fl|].
    intros x Hx. apply Fr. intros X. apply Hx. unfold scan_pre_keys. cbn [In] in *. decompose [or] X; auto; contradiction. }
  assert (Go : forall n s2, (n <= 8)%N -> knows_ready s2 u -> sc_phase s2 = sc_phase s -> ready_fit (sc_db s2) u -> (stored (sc_db s2) (ready_key (uid u)) <= 8)%N -> stored (sc_db s2) (ready_key (uid u)) <> 0%N ->
      n <> 0%N -> n <> RDY_UNPROCESSED -> (n = RDY_UNCONFIGURED -> stored (sc_db s2) (ready_key (uid u)) = RDY_UNPROCESSED) ->
      (forall x, ~ In x [ready_key (uid u); "~"%char :: ready_key (uid u)] -> recs (sc_db s2) x = recs d1 x) ->
      exists s', set_ready s2 u MOD_DM n false = Ok (s', 0%Z) /\ stored (sc_db s') (ready_key (uid u)) = n /\ (n <= 8)%N /\ knows_ready s' u /\ sc_phase s' = sc_phase s /\ ready_fit (sc_db s') u /\ flags_at (sc_db s') u cookie
      /\ (forall x, ~ In x (scan_pre_keys u) -> recs (sc_db s') x = recs (sc_db s) x)).
  { intros n s2 Hn K2 P2 F2 L2 N2 N0 Nu Nc Fr2. destruct (state_step s2 u DM n (or_introl eq_refl) Hn ltac:(rewrite P2; exact P) K2 L2 F2 (or_intror (move_from _ _ N2 N0 Nu Nc))) as (s' & E & K' & S' & P' & F' & Fr').
    exists s'. split; [exact E|]. split; [exact S'|]. split; [exact Hn|]. split; [exact K'|]. split; [congruence|]. split; [exact F'|].
    assert (Fd : forall x, ~ In x [ready_key (uid u); "~"%char :: ready_key (uid u)] -> recs (sc_db s') x = recs d1 x) by (intros x Hx; rewrite Fr', Fr2 by exact Hx; reflexivity).
    split.
    - unfold flags_at in *. destruct cookie; rewrite Fd; (exact Fl || (cbn [In]; intros X; decompose [or] X; try contradiction; discriminate)).
    - intros x Hx. rewrite Fd; [apply Fr|]; intros X; apply Hx; unfold scan_pre_keys; cbn [In] in *; decompose [or] X; auto; contradiction. }
  (* the result *)
  assert (Done : forall (m : outcome (scan * Z)) n, (exists s', m = Ok (s', 0%Z) /\ stored (sc_db s') (ready_key (uid u)) = n /\ (n <= 8)%N /\ knows_ready s' u /\ sc_phase s' = sc_phase s /\ ready_fit (sc_db s') u /\ flags_at (sc_db s') u cookie
      /\ (forall x, ~ In x (scan_pre_keys u) -> recs (sc_db s') x = recs (sc_db s) x)) ->
     exists s', (let! (s0, r) := m in if (r <? 0)%Z then Ok (s0, (-1)%Z) else let! (s, r) := sub s0 in Ok (s, if (r <? 0)%Z then (-1)%Z else 0%Z)) = (let! (s, r) := sub s' in Ok (s, if (r <? 0)%Z then (-1)%Z else 0%Z))
      /\ stored (sc_db s') (ready_key (uid u)) = n /\ (n <= 8)%N /\ knows_ready s' u /\ sc_phase s' = sc_phase s /\ ready_fit (sc_db s') u /\ flags_at (sc_db s') u cookie
      /\ (forall x, ~ In x (scan_pre_keys u) -> recs (sc_db s') x = recs (sc_db s) x)).
  { intros m n (s' & -> & R). exists s'. cbn [obind]. change (0 <? 0)%Z with false. cbv iota. split; [reflexivity|exact R]. }
  assert (Refuse : forall (m : outcome (scan * Z)) r, (r < 0)%Z -> m = Ok (s1, r) -> exists s', (let! (s0, r) := m in if (r <? 0)%Z then Ok (s0, (-1)%Z) else let! (s, r) := sub s0 in Ok (s, if (r <? 0)%Z then (-1)%Z else 0%Z)) = Ok (s', (-1)%Z)
      /\ recs (sc_db s') (ready_key (uid u)) = recs (sc_db s) (ready_key (uid u))).
  { intros m r Hr ->. exists s1. cbn [obind]. replace (r <? 0)%Z with true by lia. split; [reflexivity|]. rewrite D1. exact Rk. }
  unfold dm_next. fold old. set (ck := match cookie with Some _ => true | None => false end).
  destruct (ck && (synth || negb (is_change a))) eqn:Ec.
  { rewrite orb_true_r. exists s1. split; [reflexivity|]. rewrite D1. exact Rk. }
  rewrite orb_false_r. destruct (old =? RDY_UNDEFINED)%N eqn:E0.
  { apply N.eqb_eq in E0. destruct (key_eqb susp (B "1")) eqn:Es.
    - apply (Refuse _ (- EBADRQC)%Z); [reflexivity|]. destruct (set_ready_lemma s1 u MOD_DM RDY_UNAVAILABLE false ltac:(unfold RDY_UNAVAILABLE; lia) ltac:(lia)) as (_ & _ & L3 & _).
      apply L3; [exact P1'|rewrite Ks1, E0; discriminate|]. rewrite Ks1, E0. intros (_ & _ & _ & X). specialize (X eq_refl). discriminate X.
    - apply (Refuse _ (-1)%Z); [reflexivity|]. rewrite E0. reflexivity. }
  apply N.eqb_neq in E0. assert (N1 : stored (sc_db s1) (ready_key (uid u)) <> 0%N) by (rewrite D1, St1; exact E0).
  assert (So : stored (sc_db s1) (ready_key (uid u)) = old) by (rewrite D1; exact St1).
  assert (FrI : forall x, ~ In x [ready_key (uid u); "~"%char :: ready_key (uid u)] -> recs (sc_db s1) x = recs d1 x) by (intros; rewrite D1; reflexivity).
  destruct (key_eqb susp (B "1")) eqn:Es.
  { apply Done. apply Go; try assumption; try discriminate. }
  assert (Set_ : forall n, (n <= 8)%N -> n <> 0%N -> n <> RDY_UNPROCESSED -> (n = RDY_UNCONFIGURED -> old = RDY_UNPROCESSED) -> exists s', set_ready s1 u MOD_DM n false = Ok (s', 0%Z) /\ stored (sc_db s') (ready_key (uid u)) = n /\ (n <= 8)%N /\ knows_ready s' u /\ sc_phase s' = sc_phase s /\ ready_fit (sc_db s') u /\ flags_at (sc_db s') u cookie
      /\ (forall x, ~ In x (scan_pre_keys u) -> recs (sc_db s') x = recs (sc_db s) x)).
  { intros n A1 A2 A3 A4. apply Go; try assumption. intros X. rewrite So. exact (A4 X). }
  destruct (ready_le8 old L8) as [X|X]; [congruence|]. cbn [In] in X. unfold dm_switch. destruct X as [X|[X|[X|[X|[X|[X|[X|[X|[]]]]]]]]]; rewrite <- X in *.
  - change (1 =? RDY_REMOVED)%N with true. cbn [orb]. apply Done, Stay. reflexivity.
  - change (2 =? RDY_REMOVED)%N with false. change (2 =? RDY_UNINITIALIZED)%N with false. change (2 =? RDY_UNPROCESSED)%N with true. cbn [orb]. cbv iota. destruct cookie as [n|].
    + apply Done. destruct (by_cookie_le n) as (B1 & B2 & B3 & B4).
      destruct (Set_ RDY_UNCONFIGURED ltac:(unfold RDY_UNCONFIGURED; lia) ltac:(discriminate) ltac:(discriminate) ltac:(intros _; reflexivity)) as (s2 & E2 & S2 & _ & K2 & P2 & F2 & _ & _).
      destruct (state_step s1 u DM RDY_UNCONFIGURED (or_introl eq_refl) ltac:(unfold RDY_UNCONFIGURED; lia) P1' K1 L1 F1) as (s3 & E3 & _ & _ & _ & _ & Fr3);
        [right; rewrite So; apply move_from; try discriminate; reflexivity|]. change DM with MOD_DM in E3. rewrite E2 in E3. injection E3 as <-.
      rewrite E2. cbn [obind]. change (0 <? 0)%Z with false. cbv iota. rewrite set_by_cookie. apply Go; try assumption; try (rewrite S2; discriminate).
      * intros C. destruct (B4 C).
      * intros x Hx. rewrite Fr3, D1 by exact Hx. reflexivity.
    + destruct synth; [|destruct (is_add a)]; apply Done; [apply Set_; discriminate|apply Set_; try discriminate; reflexivity|apply Stay; reflexivity].
  - change (3 =? RDY_REMOVED)%N with false. change (3 =? RDY_UNINITIALIZED)%N with false. change (3 =? RDY_UNPROCESSED)%N with false. cbn [orb]. cbv iota. destruct cookie as [n|]; apply Done; [|apply Stay; reflexivity].
    rewrite set_by_cookie. destruct (by_cookie_le n) as (B1 & B2 & B3 & B4). apply Set_; try assumption. intros C. destruct (B4 C).
  - change (4 =? RDY_UNINITIALIZED)%N with true. rewrite orb_true_r. apply Done, Stay. reflexivity.
  - change (5 =? RDY_REMOVED)%N with false. change (5 =? RDY_UNINITIALIZED)%N with false. change (5 =? RDY_UNPROCESSED)%N with false. cbn [orb]. cbv iota. destruct cookie as [n|]; apply Done; [|apply Stay; reflexivity].
    rewrite set_by_cookie. destruct (by_cookie_le n) as (B1 & B2 & B3 & B4). apply Set_; try assumption. intros C. destruct (B4 C).
  - change (6 =? RDY_REMOVED)%N with false. change (6 =? RDY_UNINITIALIZED)%N with false. change (6 =? RDY_UNPROCESSED)%N with false. cbn [orb]. cbv iota. destruct cookie as [n|]; apply Done; [|apply Stay; reflexivity].
    rewrite set_by_cookie. destruct (by_cookie_le n) as (B1 & B2 & B3 & B4). apply Set_; try assumption. intros C. destruct (B4 C).
  - change (7 =? RDY_REMOVED)%N with false. change (7 =? RDY_UNINITIALIZED)%N with false. change (7 =? RDY_UNPROCESSED)%N with false. cbn [orb]. cbv iota. destruct cookie as [n|]; apply Done; [|apply Stay; reflexivity].
    rewrite set_by_cookie. destruct (by_cookie_le n) as (B1 & B2 & B3 & B4). apply Set_; try assumption. intros C. destruct (B4 C).
  - change (8 =? RDY_REMOVED)%N with false. change (8 =? RDY_UNINITIALIZED)%N with false. change (8 =? RDY_UNPROCESSED)%N with false. cbn [orb]. cbv iota. destruct cookie as [n|]; apply Done; [|apply Stay; reflexivity].
    rewrite set_by_cookie. destruct (by_cookie_le n) as (B1 & B2 & B3 & B4). apply Set_; try assumption. intros C. destruct (B4 C).
Qed.
Lemma lvm_lemma s u cookie : knows_ready s u -> (stored (sc_db s) (ready_key (uid u)) <= 8)%N -> may_set_ready (sc_phase s) -> ready_fit (sc_db s) u -> flags_at (sc_db s) u cookie ->
  match cookie with Some n => cookie_value n | None => True end -> stored (sc_db s) (ready_key (uid u)) <> 0%N ->
  exists s', lvm_scan_pre u s = Ok (s', 0%Z) /\ stored (sc_db s') (ready_key (uid u)) = lvm_next (stored (sc_db s) (ready_key (uid u))) cookie /\ knows_ready s' u
    /\ (forall x, ~ In x [ready_key (uid u); "~"%char :: ready_key (uid u)] -> recs (sc_db s') x = recs (sc_db s) x).
Proof.
  intros K L P F Fl V N0. unfold lvm_scan_pre.
  destruct (state_loaded_lemma s u MOD_LVM (or_intror K) (fun o Ho => proj2 (proj2 (proj2 (F o Ho))))) as (s1 & G & K1 & D1 & P1 & _). rewrite G. cbn [obind]. change (dev_id u) with (uid u).
  remember (stored (sc_db s) (ready_key (uid u))) as old eqn:Eo.
  assert (St1 : stored (sc_db s1) (ready_key (uid u)) = old) by (rewrite D1; congruence).
  assert (Fl1 : flags_at (sc_db s1) u cookie) by (rewrite D1; exact Fl). assert (F1 : ready_fit (sc_db s1) u) by (rewrite D1; exact F).
  assert (P1' : may_set_ready (sc_phase s1)) by (rewrite P1; exact P).
  assert (Stay : forall n, n = old -> exists s', Ok (s1, 0%Z) = Ok (s', 0%Z) /\ stored (sc_db s') (ready_key (uid u)) = n /\ knows_ready s' u
    /\ (forall x, ~ In x [ready_key (uid u); "~"%char :: ready_key (uid u)] -> recs (sc_db s') x = recs (sc_db s) x)).
  { intros n ->. exists s1. split; [reflexivity|]. split; [exact St1|]. split; [exact K1|]. intros; rewrite D1; reflexivity. }
  assert (Go : forall n, (4 <= n <= 8)%N -> exists s', set_ready s1 u MOD_LVM n false = Ok (s', 0%Z) /\ stored (sc_db s') (ready_key (uid u)) = n /\ knows_ready s' u
    /\ (forall x, ~ In x [ready_key (uid u); "~"%char :: ready_key (uid u)] -> recs (sc_db s') x = recs (sc_db s) x)).
  { intros n Hn. destruct (state_step s1 u LVM n (or_intror eq_refl) ltac:(lia) P1' K1 ltac:(lia) F1) as (s' & E & K' & S' & _ & _ & Fr).
    - right. rewrite St1. apply move_from; try exact N0; unfold RDY_UNPROCESSED, RDY_UNCONFIGURED; lia.
    - exists s'. split; [exact E|]. split; [exact S'|]. split; [exact K'|]. intros x Hx. rewrite Fr, D1 by exact Hx. reflexivity. }
  unfold lvm_next. destruct (old <? RDY_UNINITIALIZED)%N eqn:E4.
  { apply Stay. unfold RDY_UNINITIALIZED, RDY_PUBLIC, RDY_PRIVATE in *. replace ((old =? 8) || (old =? 5))%N with false by lia. replace (old =? 4)%N with false by lia. destruct (match cookie with Some c => N.testbit c 24 | None => false end); reflexivity. }
  rewrite (flags_lvm (sc_db s1) u cookie Fl1 V). cbn [obind].
  assert (Em : match match cookie with Some n => Some (n / 65536)%N | None => None end with Some f => N.testbit f BIT_SUB0 | None => false end = match cookie with Some c => N.testbit c 24 | None => false end).
  { destruct cookie; [|reflexivity]. rewrite flag_bit. reflexivity. }
  rewrite Em. destruct (match cookie with Some c => N.testbit c 24 | None => false end).
  - destruct ((old =? RDY_PUBLIC) || (old =? RDY_PRIVATE))%N eqn:E8; [apply Go; unfold RDY_UNINITIALIZED; lia|]. destruct (old =? RDY_UNINITIALIZED)%N; apply Stay; reflexivity.
  - destruct ((old =? RDY_PUBLIC) || (old =? RDY_PRIVATE))%N eqn:E8; destruct (old =? RDY_UNINITIALIZED)%N eqn:E5; try (apply Stay; reflexivity); [unfold RDY_UNINITIALIZED, RDY_PUBLIC, RDY_PRIVATE in *; lia|].
    apply Go. unfold RDY_PUBLIC. lia.
Qed.
Lemma event_value d u cookie susp : event d u cookie susp -> match cookie with Some n => cookie_value n | None => True end.
Proof. intros (E & _). destruct cookie; [|exact I]. destruct E as (t & _ & _ & V). exact V. Qed.
Lemma next_not_0 old cookie synth a susp n : dm_next old cookie synth a susp = Some n -> n <> 0%N.
Proof.
  unfold dm_next. destruct (old =? RDY_UNDEFINED)%N eqn:E; [discriminate|]. apply N.eqb_neq in E. cbn [orb]. destruct (_ && _); [discriminate|]. destruct (key_eqb _ _); [intros H; injection H as <-; discriminate|].
  destruct (_ || _); [intros H; injection H as <-; exact E|]. destruct cookie as [c|]; [intros H; injection H as <-; apply by_cookie_le|].
  intros H. injection H as <-. destruct (old =? RDY_UNPROCESSED)%N; [|exact E]. destruct synth; [discriminate|]. destruct (is_add a); [discriminate|exact E].
Qed.
Lemma dm_alone_lemma s u cookie susp synth a : prepared s u -> event (sc_db s) u cookie susp ->
  match dm_next (stored (sc_db s) (ready_key (uid u))) cookie synth a susp with
  | None => exists s', dm_scan_pre s u synth a no_sub = Ok (s', (-1)%Z) /\ recs (sc_db s') (ready_key (uid u)) = recs (sc_db s) (ready_key (uid u))
  | Some n => exists s', dm_scan_pre s u synth a no_sub = Ok (s', 0%Z) /\ stored (sc_db s') (ready_key (uid u)) = n /\ knows_ready s' u
      /\ (forall x, ~ In x (scan_pre_keys u) -> recs (sc_db s') x = recs (sc_db s) x)
  end.
Proof.
  intros P E. pose proof (pre_lemma s u cookie susp synth a no_sub P E) as H. cbv zeta in H. destruct (dm_next _ cookie synth a susp) as [n|]; [|exact H].
  destruct H as (s' & E' & S' & _ & K & _ & _ & _ & Fr). exists s'. split; [rewrite E'; reflexivity|]. auto.
Qed.
Lemma dm_lvm_lemma s u cookie susp synth a : prepared s u -> event (sc_db s) u cookie susp ->
  match dm_next (stored (sc_db s) (ready_key (uid u))) cookie synth a susp with
  | None => exists s', dm_scan_pre s u synth a (lvm_scan_pre u) = Ok (s', (-1)%Z) /\ recs (sc_db s') (ready_key (uid u)) = recs (sc_db s) (ready_key (uid u))
  | Some n => exists s', dm_scan_pre s u synth a (lvm_scan_pre u) = Ok (s', 0%Z) /\ stored (sc_db s') (ready_key (uid u)) = lvm_next n cookie /\ knows_ready s' u
      /\ (forall x, ~ In x (scan_pre_keys u) -> recs (sc_db s') x = recs (sc_db s) x)
  end.
Proof.
  intros P E. pose proof (pre_lemma s u cookie susp synth a (lvm_scan_pre u) P E) as H. cbv zeta in H. destruct (dm_next _ cookie synth a susp) as [n|] eqn:D; [|exact H].
  destruct H as (s' & E' & S' & L & K & Ph & Fit & Fl & Fr). apply next_not_0 in D.
  destruct (lvm_lemma s' u cookie K ltac:(rewrite S'; exact L) ltac:(rewrite Ph; apply P) Fit Fl (event_value _ _ _ _ E) ltac:(rewrite S'; exact D)) as (s2 & E2 & S2 & K2 & Fr2).
  exists s2. rewrite E', E2. cbn [obind]. change (0 <? 0)%Z with false. cbv iota. split; [reflexivity|]. rewrite S' in S2. split; [exact S2|]. split; [exact K2|].
  intros x Hx. rewrite Fr2; [apply Fr; exact Hx|]. intros X. apply Hx. unfold scan_pre_keys. cbn [In] in *. tauto.
Qed.
Lemma private_lemma s u n susp a : prepared s u -> event (sc_db s) u (Some n) susp -> susp <> B "1" -> N.testbit n 19 = true -> is_change a = true ->
  ~ In (stored (sc_db s) (ready_key (uid u))) [RDY_UNDEFINED; RDY_REMOVED; RDY_UNINITIALIZED] ->
  exists s', dm_scan_pre s u false a (lvm_scan_pre u) = Ok (s', 0%Z) /\ stored (sc_db s') (ready_key (uid u)) = if N.testbit n 24 then RDY_UNINITIALIZED else RDY_PRIVATE.
Proof.
  intros P E Ns T A NI. pose proof (dm_lvm_lemma s u (Some n) susp false a P E) as H. unfold dm_next in H. rewrite A in H. cbn [negb orb andb] in H. rewrite orb_false_r in H.
  destruct (N.eqb_spec (stored (sc_db s) (ready_key (uid u))) RDY_UNDEFINED) as [X|_]; [destruct NI; left; congruence|].
  destruct (key_eqb_spec susp (B "1")) as [X|_]; [contradiction|].
  destruct (N.eqb_spec (stored (sc_db s) (ready_key (uid u))) RDY_REMOVED) as [X|_]; [destruct NI; right; left; congruence|].
  destruct (N.eqb_spec (stored (sc_db s) (ready_key (uid u))) RDY_UNINITIALIZED) as [X|_]; [destruct NI; right; right; left; congruence|]. cbn [orb] in H.
  destruct H as (s' & E' & S' & _). exists s'. split; [exact E'|]. rewrite S'. unfold by_cookie, lvm_next. rewrite T. destruct (N.testbit n 24); reflexivity.
Qed.
Lemma not_private_lemma s u n susp a : prepared s u -> event (sc_db s) u (Some n) susp -> susp <> B "1" -> N.testbit n 19 = true -> N.testbit n 24 = false -> is_change a = true ->
  stored (sc_db s) (ready_key (uid u)) = RDY_UNINITIALIZED ->
  exists s', dm_scan_pre s u false a (lvm_scan_pre u) = Ok (s', 0%Z) /\ stored (sc_db s') (ready_key (uid u)) = RDY_PUBLIC.
Proof.
  intros P E Ns T T24 A St. pose proof (dm_lvm_lemma s u (Some n) susp false a P E) as H. unfold dm_next in H. rewrite A, St in H. cbn [negb orb andb] in H.
  destruct (key_eqb_spec susp (B "1")) as [X|_]; [contradiction|]. change (RDY_UNINITIALIZED =? RDY_UNDEFINED)%N with false in H. change (RDY_UNINITIALIZED =? RDY_REMOVED)%N with false in H. rewrite N.eqb_refl in H. cbn [orb] in H.
  destruct H as (s' & E' & S' & _). exists s'. split; [exact E'|]. rewrite S'. unfold lvm_next. rewrite T24. reflexivity.
Qed.

(* Variables for udev *)
Lemma var_set d u v x f : good_name NS_UDEV v -> N.testbit f 3 = false -> writable d DM (udev_var (Lvm_Spec.number u) v) ->
  exists d', kv_set d u MOD_DM NS_UDEV v (match x with Some x => Some (x ++ [NUL]) | None => None end) f = Ok (d', 0%Z, Some (var_record u (N.lor f 6) x))
    /\ recs d' (udev_var (Lvm_Spec.number u) v) = Some (var_record u (N.lor f 6) x) /\ (forall k, k <> udev_var (Lvm_Spec.number u) v -> recs d' k = recs d k).
Proof.
  intros G F W. destruct (allowed_lemma d u MOD_DM NS_UDEV v (match x with Some x => Some (x ++ [NUL]) | None => None end) f G dm_nul W) as (d' & E & R & _ & Fr). exists d'.
  assert (Q : new_rec u NS_UDEV MOD_DM (match x with Some x => Some (x ++ [NUL]) | None => None end) f = var_record u (N.lor f 6) x) by (destruct x; reflexivity). rewrite Q in *.
  split; [exact E|]. split; [exact R|]. intros k Hk. apply Fr; [exact Hk|]. intros _. left. exact F.
Qed.
Lemma writable_step d d' u v x f k : writable d DM k -> recs d' (udev_var (Lvm_Spec.number u) v) = Some (var_record u f x) ->
  (forall k, k <> udev_var (Lvm_Spec.number u) v -> recs d' k = recs d k) -> writable d' DM k.
Proof.
  intros W R Fr o Ho. destruct (list_eq_dec ascii_dec k (udev_var (Lvm_Spec.number u) v)) as [->|N].
  - rewrite R in Ho. injection Ho as <-. split; [exact dm_nul|]. apply may_write_match; [exact dm_nul|exact dm_nul|]. vm_compute. exact I.
  - apply W. rewrite <- Fr by exact N. exact Ho.
Qed.
Lemma store_lemma2 u f : forall names i d, Forall (good_name NS_UDEV) names -> NoDup names -> (forall v, In v (vsn_var :: rules_vars) -> writable d DM (udev_var (Lvm_Spec.number u) v)) -> incl names rules_vars ->
  exists d', store_flags d u f i names = Ok (d', 0%Z)
    /\ (forall j v, nth_error names j = Some v -> recs d' (udev_var (Lvm_Spec.number u) v) = Some (var_record u 102 (if N.testbit f (i + N.of_nat j) then Some (B "1") else None)))
    /\ vars_writable d' u /\ (forall k, ~ In k (map (udev_var (Lvm_Spec.number u)) names) -> recs d' k = recs d k).
Proof.
  induction names as [|v names IH]; intros i d G ND W I.
  - exists d. split; [reflexivity|]. split; [intros [|j] v; discriminate|]. split; [exact W|reflexivity].
  - inversion_clear G as [|? ? G1 G2]. inversion_clear ND as [|? ? N1 N2]. cbn [store_flags].
    destruct (var_set d u v (if N.testbit f i then Some (B "1") else None) FL_FLAG G1 eq_refl (W v (or_intror (I v (or_introl eq_refl))))) as (d1 & E1 & R1 & Fr1).
    replace (match (if N.testbit f i then Some (B "1") else None) with Some x => Some (x ++ [NUL]) | None => None end) with (if N.testbit f i then Some (B "1" ++ [NUL]) else None) in E1 by (destruct (N.testbit f i); reflexivity).
    rewrite E1. cbn [obind]. change (0 <? 0)%Z with false. cbv iota.
    destruct (IH (i + 1)%N d1 G2 N2) as (d' & E & R & W' & Fr).
    + intros x Hx. exact (writable_step _ _ _ _ _ _ _ (W x Hx) R1 Fr1).
    + intros x Hx. apply I. right. exact Hx.
    + exists d'. split; [exact E|]. split; [|split; [exact W'|]].
      * intros [|j] x Hx; cbn [nth_error] in Hx.
        -- injection Hx as <-. rewrite Fr; [rewrite N.add_0_r; exact R1|]. intros X. apply in_map_iff in X. destruct X as (y & Ey & Hy). apply udev_inj in Ey. subst y. exact (N1 Hy).
        -- replace (i + N.of_nat (S j))%N with (i + 1 + N.of_nat j)%N by lia. exact (R j x Hx).
      * intros k Hk. cbn [map In] in Hk. rewrite Fr, Fr1; [reflexivity|intros ->; apply Hk; left; reflexivity|intros X; apply Hk; right; exact X].
Qed.
Lemma vars_good : Forall (good_name NS_UDEV) (vsn_var :: rules_vars).
Proof. unfold vsn_var, rules_vars. repeat (apply Forall_cons; [apply good; cbn; (exact I || discriminate)|]). apply Forall_nil. Qed.
Lemma vars_nodup : NoDup (vsn_var :: rules_vars).
Proof. unfold vsn_var, rules_vars. repeat (constructor; [intros H; cbn [In] in H; decompose [or] H; try contradiction; discriminate|]). constructor. Qed.
Lemma set_one_lemma d u b v : nth_error rules_vars b = Some v -> vars_writable d u ->
  exists d', set_one d u b = Ok (d', 0%Z) /\ recs d' (udev_var (Lvm_Spec.number u) v) = Some (var_record u 102 (Some (B "1"))) /\ vars_writable d' u
    /\ (forall k, k <> udev_var (Lvm_Spec.number u) v -> recs d' k = recs d k).
Proof.
  intros Hv W. assert (Iv : In v (vsn_var :: rules_vars)) by (right; exact (nth_error_In _ _ Hv)). pose proof (proj1 (Forall_forall _ _) vars_good v Iv) as G.
  unfold set_one. change flag_names with rules_vars. rewrite (nth_error_nth _ _ [] Hv).
  destruct (var_set d u v (Some (B "1")) FL_FLAG G eq_refl (W v Iv)) as (d1 & E1 & R1 & Fr1). cbv iota in E1. rewrite E1. cbn [obind]. exists d1. split; [reflexivity|]. split; [exact R1|]. split; [|exact Fr1].
  intros x Hx. exact (writable_step _ _ _ _ _ _ _ (W x Hx) R1 Fr1).
Qed.
Lemma var_of u i j v w : nth_error rules_vars i = Some v -> nth_error rules_vars j = Some w -> udev_var (Lvm_Spec.number u) v = udev_var (Lvm_Spec.number u) w -> i = j.
Proof.
  intros A C H. apply udev_inj in H. subst w. pose proof vars_nodup as ND. inversion_clear ND as [|? ? _ N2]. apply (proj1 (NoDup_nth_error rules_vars) N2); [|congruence].
  apply nth_error_Some. congruence.
Qed.
Lemma exit_lemma s u : (sc_ready s = RDY_UNDEFINED \/ knows_ready s u) -> (forall o, recs (sc_db s) (ready_key (uid u)) = Some o -> state_record o) -> vars_writable (sc_db s) u ->
  let ready := stored (sc_db s) (ready_key (uid u)) in
  let vsn d' := recs d' (udev_var (Lvm_Spec.number u) vsn_var) = if (RDY_UNINITIALIZED <=? ready)%N then Some (var_record u 6 (Some (B "3"))) else recs (sc_db s) (udev_var (Lvm_Spec.number u) vsn_var) in
  (forall f, (f < 65536)%N -> reads (sc_db s) DM (flags_key u) (two_bytes f) ->
     exists s', dm_scan_a_exit s u = Ok (s', 0%Z) /\ vars_stored u f ready (sc_db s') /\ vsn (sc_db s')
       /\ (forall k, ~ In k (map (udev_var (Lvm_Spec.number u)) (vsn_var :: rules_vars)) -> recs (sc_db s') k = recs (sc_db s) k))
  /\ (lacks (sc_db s) (flags_key u) -> exists s', dm_scan_a_exit s u = Ok (s', 0%Z) /\ vsn (sc_db s')
       /\ (forall k, k <> udev_var (Lvm_Spec.number u) vsn_var -> recs (sc_db s') k = recs (sc_db s) k)).
Proof.
  intros K Rd W ready vsn. unfold dm_scan_a_exit. destruct (state_loaded_lemma s u MOD_DM K Rd) as (s1 & G & K1 & D1 & _). rewrite G. cbn [obind]. change (stored (sc_db s) (ready_key (dev_id u))) with ready. rewrite D1.
  assert (V : exists d1, (if (RDY_UNINITIALIZED <=? ready)%N then str_set (sc_db s) u MOD_DM NS_UDEV U_RULES_VSN RULES_VSN FL_SYNC_P else Ok (sc_db s, 0%Z)) = Ok (d1, 0%Z)
     /\ vsn d1 /\ (forall k, k <> udev_var (Lvm_Spec.number u) vsn_var -> recs d1 k = recs (sc_db s) k) /\ vars_writable d1 u).
  { unfold vsn. destruct (RDY_UNINITIALIZED <=? ready)%N; [|exists (sc_db s); split; [reflexivity|]; split; [reflexivity|]; split; [reflexivity|exact W]].
    destruct (var_set (sc_db s) u vsn_var (Some (B "3")) FL_SYNC_P (Forall_inv vars_good) eq_refl (W vsn_var (or_introl eq_refl))) as (d1 & E1 & R1 & Fr1). exists d1.
    unfold str_set. change U_RULES_VSN with vsn_var. change RULES_VSN with (B "3"). cbv iota in E1. rewrite E1. cbn [obind]. split; [reflexivity|]. split; [exact R1|]. split; [exact Fr1|].
    intros x Hx. exact (writable_step _ _ _ _ _ _ _ (W x Hx) R1 Fr1). }
  destruct V as (d1 & E1 & V1 & Fr1 & W1). rewrite E1. cbn [obind]. change (0 <? 0)%Z with false. cbv iota.
  assert (Fk : recs d1 (flags_key u) = recs (sc_db s) (flags_key u)) by (apply Fr1; discriminate).
  assert (Vs : forall i v, nth_error rules_vars i = Some v -> udev_var (Lvm_Spec.number u) v <> udev_var (Lvm_Spec.number u) vsn_var).
  { intros i v Hv X. apply udev_inj in X. subst v. pose proof vars_nodup as ND. inversion_clear ND as [|? ? N1 _]. exact (N1 (nth_error_In _ _ Hv)). }
  split.
  - intros f Hf (o & Ho & Ho2). rewrite (short_reads d1 u MOD_DM X_COOKIE_FLAGS None f flags_good dm_nul Hf) by (rewrite own_key by exact flags_good; exists o; split; [rewrite <- Ho; exact Fk|exact Ho2]). cbn [obind].
    pose proof vars_good as Gd. pose proof vars_nodup as ND. inversion_clear ND as [|? ? _ N2].
    destruct (store_lemma2 u f flag_names 0 d1 (Forall_inv_tail Gd) N2 W1 (incl_refl _)) as (d2 & E2 & R2 & W2 & Fr2). rewrite E2. cbn [obind]. change (0 <? 0)%Z with false. cbv iota. change flag_names with rules_vars in *.
    assert (R2' : forall i v, nth_error rules_vars i = Some v -> recs d2 (udev_var (Lvm_Spec.number u) v) = Some (var_record u 102 (if N.testbit f (N.of_nat i) then Some (B "1") else None))) by (intros i v Hv; exact (R2 i v Hv)).
    assert (V2 : vsn d2).
    { unfold vsn. rewrite Fr2; [exact V1|]. intros X. apply in_map_iff in X. destruct X as (y & Ey & Hy). apply In_nth_error in Hy. destruct Hy as (i & Hi). exact (Vs i y Hi Ey). }
    assert (F2 : forall k, ~ In k (map (udev_var (Lvm_Spec.number u)) (vsn_var :: rules_vars)) -> recs d2 k = recs (sc_db s) k).
    { intros k Hk. cbn [map In] in Hk. rewrite Fr2, Fr1; [reflexivity|intros ->; apply Hk; left; reflexivity|intros X; apply Hk; right; exact X]. }
    assert (H3 : exists v3, nth_error rules_vars 3 = Some v3) by (eexists; reflexivity). destruct H3 as (v3 & H3). assert (H2 : exists v2, nth_error rules_vars 2 = Some v2) by (eexists; reflexivity). destruct H2 as (v2 & H2).
    (* one more variable *)
    assert (Step : forall d b v (fo : nat -> Prop), nth_error rules_vars b = Some v -> vars_writable d u -> vsn d -> (forall k, ~ In k (map (udev_var (Lvm_Spec.number u)) (vsn_var :: rules_vars)) -> recs d k = recs (sc_db s) k) ->
      (forall i v, nth_error rules_vars i = Some v -> ((N.testbit f (N.of_nat i) = true \/ fo i) -> recs d (udev_var (Lvm_Spec.number u) v) = Some (var_record u 102 (Some (B "1"))))
         /\ (N.testbit f (N.of_nat i) = false -> ~ fo i -> recs d (udev_var (Lvm_Spec.number u) v) = Some (var_record u 102 None))) ->
      exists d', set_one d u b = Ok (d', 0%Z) /\ vars_writable d' u /\ vsn d' /\ (forall k, ~ In k (map (udev_var (Lvm_Spec.number u)) (vsn_var :: rules_vars)) -> recs d' k = recs (sc_db s) k)
        /\ (forall i v, nth_error rules_vars i = Some v -> ((N.testbit f (N.of_nat i) = true \/ fo i \/ i = b) -> recs d' (udev_var (Lvm_Spec.number u) v) = Some (var_record u 102 (Some (B "1"))))
         /\ (N.testbit f (N.of_nat i) = false -> ~ (fo i \/ i = b) -> recs d' (udev_var (Lvm_Spec.number u) v) = Some (var_record u 102 None)))).
    { intros d b v fo Hv Wd Vd Fd Rd'. destruct (set_one_lemma d u b v Hv Wd) as (d' & E & R & W' & Fr). exists d'. split; [exact E|]. split; [exact W'|].
      split; [unfold vsn; rewrite Fr; [exact Vd|intros X; symmetry in X; exact (Vs b v Hv X)]|]. split.
      - intros k Hk. rewrite Fr; [exact (Fd k Hk)|]. intros ->. apply Hk. apply in_map. right. exact (nth_error_In _ _ Hv).
      - intros i x Hx. destruct (Nat.eq_dec i b) as [->|Ne].
        + assert (x = v) as -> by congruence. split; [intros _; exact R|intros _ X; destruct X; right; reflexivity].
        + rewrite Fr by (intros X; exact (Ne (var_of u i b x v Hx Hv X))). destruct (Rd' i x Hx) as (Q1 & Q2). split.
          * intros X. apply Q1. destruct X as [X|[X|X]]; [left; exact X|right; exact X|contradiction].
          * intros X Y. apply Q2; [exact X|]. intros Z. apply Y. left. exact Z. }
    assert (R0 : forall i v, nth_error rules_vars i = Some v -> ((N.testbit f (N.of_nat i) = true \/ False) -> recs d2 (udev_var (Lvm_Spec.number u) v) = Some (var_record u 102 (Some (B "1"))))
         /\ (N.testbit f (N.of_nat i) = false -> ~ False -> recs d2 (udev_var (Lvm_Spec.number u) v) = Some (var_record u 102 None))).
    { intros i v Hv. rewrite (R2' i v Hv). split; [intros [-> |[]]; reflexivity|intros -> _; reflexivity]. }
    unfold vars_stored, forced. cbn [In]. destruct ((ready =? RDY_UNINITIALIZED) || (ready =? RDY_PRIVATE) || (ready =? RDY_UNAVAILABLE))%N eqn:E5; [|destruct (ready =? RDY_FLAT)%N eqn:E6].
    + assert (Rr : RDY_UNINITIALIZED = ready \/ RDY_PRIVATE = ready \/ RDY_UNAVAILABLE = ready) by (clear - E5; lia).
      destruct (Step d2 3 v3 (fun _ => False) H3 W2 V2 F2 R0) as (d3 & E3 & W3 & V3 & F3 & R3). rewrite E3. cbn [obind]. change (0 <? 0)%Z with false. cbv iota.
      destruct (Step d3 2 v2 (fun i => False \/ i = 3) H2 W3 V3 F3 R3) as (d4 & E4 & _ & V4 & F4 & R4). rewrite E4. cbn [obind]. exists (with_db s1 d4). split; [reflexivity|]. cbn [with_db sc_db].
      split; [|split; [exact V4|exact F4]]. intros i v Hv. destruct (R4 i v Hv) as (Q1 & Q2). split; [intros X; apply Q1; tauto|intros X Y; apply Q2; tauto].
    + assert (Rr : RDY_FLAT = ready) by (clear - E6; lia). assert (Nr : ~ (RDY_UNINITIALIZED = ready \/ RDY_PRIVATE = ready \/ RDY_UNAVAILABLE = ready)) by (clear - E5; lia).
      destruct (Step d2 2 v2 (fun _ => False) H2 W2 V2 F2 R0) as (d3 & E3 & W3 & V3 & F3 & R3). rewrite E3. cbn [obind]. exists (with_db s1 d3). split; [reflexivity|]. cbn [with_db sc_db].
      split; [|split; [exact V3|exact F3]]. intros i v Hv. destruct (R3 i v Hv) as (Q1 & Q2). split; [intros X; apply Q1; tauto|intros X Y; apply Q2; tauto].
    + assert (Nr : ~ (RDY_UNINITIALIZED = ready \/ RDY_PRIVATE = ready \/ RDY_UNAVAILABLE = ready \/ RDY_FLAT = ready)) by (clear - E5 E6; lia).
      exists (with_db s1 d2). split; [reflexivity|]. cbn [with_db sc_db]. split; [|split; [exact V2|exact F2]]. intros i v Hv. destruct (R0 i v Hv) as (Q1 & Q2). split; [intros X; apply Q1; tauto|intros X Y; apply Q2; tauto].
  - intros L. rewrite short_none by (rewrite own_key by exact flags_good; intros o Ho; apply (L o); rewrite <- Ho; symmetry; exact Fk). cbn [obind].
    exists (with_db s1 d1). split; [reflexivity|]. split; [exact V1|exact Fr1].
Qed.

(* Submodules *)
Lemma sub_is u : record_key u MOD_DM NS_DEVICE K_DM_SUB = sub_key u.
Proof. unfold record_key, sub_key, uid. reflexivity. Qed.
Lemma sub_good : good_name NS_DEVICE K_DM_SUB. Proof. apply good; cbn; (exact I || discriminate). Qed.
Lemma match_first d pre m post : (forall x, In x pre -> sm_current x d = Ok false) -> sm_current m d = Ok true -> match_current d (pre ++ m :: post) = Ok (Some m).
Proof. intros A C. induction pre as [|x pre IH]; cbn [app match_current]; [rewrite C; reflexivity|]. rewrite (A x (or_introl eq_refl)). cbn [obind]. apply IH. intros y Hy. apply A. right. exact Hy. Qed.
Lemma match_no d l : (forall x, In x l -> sm_current x d = Ok false) -> match_current d l = Ok None.
Proof. intros A. induction l as [|x l IH]; cbn [match_current]; [reflexivity|]. rewrite (A x (or_introl eq_refl)). cbn [obind]. apply IH. intros y Hy. apply A. right. exact Hy. Qed.
Lemma match_last d post : forall found, (forall x, In x post -> sm_next x d = Ok false) -> match_next d post found = Ok found.
Proof. induction post as [|x post IH]; intros found A; cbn [match_next]; [reflexivity|]. rewrite (A x (or_introl eq_refl)). cbn [obind]. apply IH. intros y Hy. apply A. right. exact Hy. Qed.
Lemma match_skip d pre l : forall found, (forall x, In x pre -> exists b, sm_next x d = Ok b) -> exists f, match_next d (pre ++ l) found = match_next d l f.
Proof.
  induction pre as [|x pre IH]; intros found A; [exists found; reflexivity|]. cbn [app match_next]. destruct (A x (or_introl eq_refl)) as (b & ->). cbn [obind]. apply IH. intros y Hy. apply A. right. exact Hy.
Qed.
Lemma sub_next_lemma s pre m post : (forall x, In x pre -> exists b, sm_next x (sc_db s) = Ok b) -> sm_next m (sc_db s) = Ok true -> (forall x, In x post -> sm_next x (sc_db s) = Ok false) ->
  dm_scan_next s (pre ++ m :: post) = let! (s', r) := sm_run m A_SCAN_NEXT s in Ok (s', Some m, if (r <? 0)%Z then (-1)%Z else 0%Z).
Proof.
  intros A C D. unfold dm_scan_next. destruct (match_skip (sc_db s) pre (m :: post) None A) as (f & ->). cbn [match_next]. rewrite C. cbn [obind]. rewrite match_last by exact D. cbn [obind run_submod].
  destruct (sm_run m A_SCAN_NEXT s) as [(s', r)|]; reflexivity.
Qed.
Definition sub_record (u : ucmd) (name : bytes) : rec := Rec (u_seq u) 38 (u_gen u) DM [name ++ [NUL]].
Lemma sub_set d u name : writable d DM (sub_key u) -> exists d', str_set d u MOD_DM NS_DEVICE K_DM_SUB name (N.lor FL_SYNC_P FL_FRG_RD) = Ok (d', 0%Z)
  /\ recs d' (sub_key u) = Some (sub_record u name) /\ (forall k, k <> sub_key u -> recs d' k = recs d k).
Proof.
  intros W. destruct (allowed_lemma d u MOD_DM NS_DEVICE K_DM_SUB (Some (name ++ [NUL])) (N.lor FL_SYNC_P FL_FRG_RD) sub_good dm_nul) as (d' & E & R & _ & Fr); [rewrite sub_is; exact W|].
  rewrite sub_is in *. exists d'. unfold str_set. rewrite E. cbn [obind]. split; [reflexivity|]. split; [exact R|]. intros k Hk. apply Fr; [exact Hk|]. intros _. left. reflexivity.
Qed.
Lemma sub_first_lemma s u l : lacks (sc_db s) (sub_key u) -> writable (sc_db s) DM (sub_key u) ->
  (forall pre m post, l = pre ++ m :: post -> (forall x, In x pre -> sm_current x (sc_db s) = Ok false) -> sm_current m (sc_db s) = Ok true ->
     exists d', submod_init s u l = (let! (s', r) := sm_run m A_INIT (with_db s d') in Ok (s', Some m, if (r <? 0)%Z then (-1)%Z else 0%Z))
       /\ recs d' (sub_key u) = Some (sub_record u (sm_id m)) /\ (forall k, k <> sub_key u -> recs d' k = recs (sc_db s) k))
  /\ ((forall x, In x l -> sm_current x (sc_db s) = Ok false) ->
     exists d', submod_init s u l = Ok (with_db s d', None, 0%Z) /\ recs d' (sub_key u) = Some (sub_record u (B "none")) /\ (forall k, k <> sub_key u -> recs d' k = recs (sc_db s) k)).
Proof.
  intros L W. unfold submod_init. rewrite (text_none (sc_db s) u MOD_DM NS_DEVICE K_DM_SUB sub_good) by (rewrite sub_is; exact L). cbn [obind]. split.
  - intros pre m post -> A C. rewrite (match_first _ pre m post A C). cbn [obind]. destruct (sub_set (sc_db s) u (sm_id m) W) as (d' & E & R & Fr). rewrite E. cbn [obind]. change (0 <? 0)%Z with false. cbv iota.
    exists d'. split; [|split; [exact R|exact Fr]]. unfold run_submod. destruct (sm_run m A_INIT (with_db s d')) as [(s', r)|]; reflexivity.
  - intros A. rewrite (match_no _ l A). cbn [obind]. destruct (sub_set (sc_db s) u SUB_NONE W) as (d' & E & R & Fr). rewrite E. cbn [obind]. change (0 <? 0)%Z with false. cbv iota.
    exists d'. split; [reflexivity|]. split; [exact R|exact Fr].
Qed.
Lemma sub_later_lemma s u l name : reads_text (sc_db s) DM (sub_key u) name ->
  (forall m, In m l -> sm_id m = name -> NoDup (map sm_id l) -> name <> B "none" ->
     submod_init s u l = let! (s', r) := sm_run m A_INIT s in Ok (s', Some m, if (r <? 0)%Z then (-1)%Z else 0%Z))
  /\ ((name = B "none" \/ ~ In name (map sm_id l)) -> submod_init s u l = Ok (s, None, 0%Z)).
Proof.
  intros T. unfold submod_init. rewrite (text_get (sc_db s) u MOD_DM NS_DEVICE K_DM_SUB name sub_good dm_nul) by (rewrite sub_is; exact T). cbn [obind]. split.
  - intros m Hm Em ND Nn. destruct (key_eqb_spec name SUB_NONE) as [X|_]; [destruct (Nn X)|].
    assert (F : find (fun x => key_eqb (sm_id x) name) l = Some m).
    { revert Hm ND. clear - Em. induction l as [|x l IH]; intros Hm ND; [destruct Hm|]. cbn [find map] in *. inversion_clear ND as [|? ? N1 N2]. destruct (key_eqb_spec (sm_id x) name) as [E|E].
      - destruct Hm as [->|Hm]; [reflexivity|]. destruct N1. rewrite E, <- Em. apply in_map. exact Hm.
      - destruct Hm as [->|Hm]; [contradiction|]. exact (IH Hm N2). }
    rewrite F. unfold run_submod. destruct (sm_run m A_INIT s) as [(s', r)|]; reflexivity.
  - intros [-> |Nn]; [reflexivity|]. destruct (key_eqb_spec name SUB_NONE) as [X|_]; [reflexivity|].
    destruct (find (fun x => key_eqb (sm_id x) name) l) as [m|] eqn:F; [|reflexivity]. apply find_some in F. destruct F as (F1 & F2). destruct (key_eqb_spec (sm_id m) name) as [E|]; [|discriminate F2].
    destruct Nn. rewrite <- E. apply in_map. exact F1.
Qed.
Lemma sub_kept_lemma u name s2 l2 : ~ In NUL name -> recs (sc_db s2) (sub_key u) = Some (sub_record u name) ->
  (forall m, In m l2 -> sm_id m = name -> NoDup (map sm_id l2) -> name <> B "none" ->
     submod_init s2 u l2 = let! (s', r) := sm_run m A_INIT s2 in Ok (s', Some m, if (r <? 0)%Z then (-1)%Z else 0%Z))
  /\ ((name = B "none" \/ ~ In name (map sm_id l2)) -> submod_init s2 u l2 = Ok (s2, None, 0%Z)).
Proof.
  intros Nn H. apply sub_later_lemma. split; [exact Nn|]. apply (own_reads (sc_db s2) DM (sub_key u) (sub_record u name) H eq_refl dm_nul). reflexivity.
Qed.
Lemma completed_lemma d u n susp : event d u (Some n) susp -> writable d DM (base_key u) -> writable d DM (flags_key u) ->
  exists d', get_cookie_props d u = Ok (d', 1%Z, (n / 65536)%N) /\ cookie_stored u n d d'
    /\ forall s w sub, recs (sc_db s) (base_key u) = recs d' (base_key u) ->
      (forall i, sem_get w (sem_key n) = Some i -> sem_ctl w i = true -> sem_op w i = true ->
         dm_action_current s u w sub = let! (s, r) := sub s in Ok (s, if (r <? 0)%Z then (-1)%Z else 0%Z, [i]))
      /\ ((forall i, sem_get w (sem_key n) = Some i -> sem_ctl w i = false \/ sem_op w i = false) -> dm_action_current s u w sub = Ok (s, (-1)%Z, [])).
Proof.
  intros ((t & Ht & T & V) & _) Wb Wf. destruct (proj1 (cookie_lemma d u t Ht Wb Wf) n T V) as (d' & E & C). exists d'. split; [exact E|]. split; [exact C|].
  intros s w sub H. apply (complete_lemma s u w n sub V). destruct C as (C1 & _). rewrite C1 in H. exact (own_reads _ _ _ _ H eq_refl dm_nul _ eq_refl).
Qed.
