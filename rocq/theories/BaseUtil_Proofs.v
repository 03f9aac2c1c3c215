From Verif Require Import Base Buf_IO Tok_Model Tok_Spec Tok_Proofs UtilStr_Model UtilStr_Spec UtilStr_Proofs UtilStr_Proofs2 BaseUtil_Model BaseUtil_Spec.
Local Open Scope nat_scope.

(* Reading *)
Lemma read_loop_spec ev : forall stream len got r b rest, read_loop ev stream len got = (r, b, rest) ->
  (r = Z.of_nat (length b) /\ b = got ++ firstn len stream /\ rest = skipn len stream)
  \/ (exists e k, In (Failed e) ev /\ r = (- e)%Z /\ k <= len /\ b = got ++ firstn k stream /\ rest = skipn k stream).
Proof.
  induction ev as [|e ev IH]; intros stream len got r b rest H.
  - left. destruct len as [|len]; cbn [read_loop] in H; injection H as <- <- <-; [|auto].
    cbn [firstn skipn]. rewrite app_nil_r. auto.
  - destruct len as [|len].
    { left. cbn [read_loop] in H. injection H as <- <- <-. cbn [firstn skipn]. rewrite app_nil_r. auto. }
    destruct e as [|e|n]; cbn [read_loop] in H.
    + apply IH in H as [H|(e & k & H1 & H)]; [left; exact H|right; exists e, k; split; [right; exact H1|exact H]].
    + injection H as <- <- <-. right. exists e, 0. split; [left; reflexivity|]. split; [reflexivity|]. split; [lia|].
      cbn [firstn skipn]. rewrite app_nil_r. auto.
    + set (d := firstn (Nat.min (S n) (S len)) stream) in *.
      destruct d as [|x d'] eqn:Ed.
      { left. injection H as <- <- <-. assert (stream = []). { destruct stream; [reflexivity|discriminate Ed]. }
        subst stream. cbn [firstn skipn]. rewrite app_nil_r. auto. }
      rewrite <- Ed in H. assert (Ld : length d <= S len) by (unfold d; rewrite firstn_length; lia).
      assert (Es : stream = d ++ skipn (length d) stream).
      { unfold d at 1. rewrite <- (firstn_skipn (Nat.min (S n) (S len)) stream) at 1. f_equal.
        unfold d. rewrite firstn_length. destruct (le_lt_dec (length stream) (Nat.min (S n) (S len))) as [L|L].
        - rewrite (Nat.min_r _ (length stream)) by lia. rewrite !skipn_all2 by lia. reflexivity.
        - rewrite (Nat.min_l _ (length stream)) by lia. reflexivity. }
      apply IH in H as [(A1 & A2 & A3)|(e & k & A0 & A1 & A4 & A2 & A3)].
      * left. split; [exact A1|]. rewrite A2, A3. set (sk := skipn (length d) stream) in *. rewrite Es.
        rewrite firstn_app, skipn_app, <- app_assoc. rewrite (firstn_all2 d) by lia. rewrite (skipn_all2 d) by lia. auto.
      * right. exists e, (length d + k). split; [right; exact A0|]. split; [exact A1|]. split; [lia|]. rewrite A2, A3.
        set (sk := skipn (length d) stream) in *. rewrite Es. rewrite firstn_app, skipn_app, <- app_assoc.
        rewrite (firstn_all2 d) by lia. rewrite (skipn_all2 d) by lia. replace (length d + k - length d) with k by lia. auto.
Qed.
Lemma fd_read_all_lemma ev stream len r b rest : (len <= SSIZE_MAX)%N -> fd_read_all ev stream len = (r, b, rest) ->
  stream = b ++ rest /\ length b <= N.to_nat len
  /\ ((r = Z.of_nat (length b) /\ b = firstn (N.to_nat len) stream) \/ exists e, In (Failed e) ev /\ r = (- e)%Z).
Proof.
  intros L. unfold fd_read_all. destruct (N.ltb_spec SSIZE_MAX len); [lia|]. intros H0. apply read_loop_spec in H0.
  destruct H0 as [(A & -> & ->)|(e & k & A & -> & B & -> & ->)]; cbn [app] in *; rewrite firstn_skipn.
  - split; [reflexivity|]. split; [rewrite firstn_length; lia|]. left. auto.
  - split; [reflexivity|]. split; [rewrite firstn_length; lia|]. right. eauto.
Qed.
Lemma fd_read_all_ok_lemma ev stream len : (len <= SSIZE_MAX)%N -> (forall e, ~ In (Failed e) ev) ->
  let b := firstn (N.to_nat len) stream in
  fd_read_all ev stream len = (Z.of_nat (length b), b, skipn (N.to_nat len) stream).
Proof.
  intros L NF b. unfold fd_read_all. destruct (N.ltb_spec SSIZE_MAX len); [lia|].
  destruct (read_loop ev stream (N.to_nat len) []) as [[r b'] rest] eqn:E. apply read_loop_spec in E.
  destruct E as [(-> & -> & ->)|(e & k & A & _)]; [reflexivity|elim (NF e A)].
Qed.

(* Numbers *)
Lemma digits_dec s : forall acc, digits_value acc s = fold_left (fun a c => (10 * a + (N_of_ascii c - 48))%N) s acc.
Proof. induction s as [|c s IH]; intros acc; [reflexivity|]. cbn [digits_value fold_left]. apply IH. Qed.
Lemma isdigit_b c : digit c <-> isdigit c = true.
Proof. unfold digit, isdigit. rewrite andb_true_iff, !Nat.leb_le. reflexivity. Qed.
Lemma isspace_b c : a_blank c <-> isspace c = true.
Proof. unfold isspace. rewrite inset_In. reflexivity. Qed.
Lemma all_chars (f : byte -> bool) : forallb (fun n => f (ascii_of_nat n)) (seq 0 256) = true -> forall c, f c = true.
Proof.
  intros H c. rewrite forallb_forall in H. specialize (H (nat_of_ascii c)). rewrite ascii_nat_embedding in H. apply H.
  apply in_seq. pose proof (nat_ascii_bounded c). lia.
Qed.
Lemma digit_other c : isdigit c = true -> isspace c = false /\ Ascii.eqb c "-"%char = false /\ Ascii.eqb c "+"%char = false.
Proof.
  intros H. pose proof (all_chars (fun c => negb (isdigit c) || (negb (isspace c) && negb (Ascii.eqb c "-"%char) && negb (Ascii.eqb c "+"%char)))) as A.
  specialize (A ltac:(vm_compute; reflexivity) c). cbn beta in A. rewrite H in A. cbn [negb orb] in A.
  apply andb_true_iff in A as [A A3]. apply andb_true_iff in A as [A1 A2]. apply negb_true_iff in A1, A2, A3. auto.
Qed.

Definition after_sign (t : bytes) : bool * bytes :=
  match t with
  | c :: t' => if Ascii.eqb c "-"%char then (true, t') else if Ascii.eqb c "+"%char then (false, t') else (false, t)
  | [] => (false, t) end.
Lemma strtoull_eq s : strtoull s = let '(neg, t) := after_sign (skipn (span isspace s) s) in
  let n := span isdigit t in
  if n =? 0 then (0%N, false, s) else
  let v := digits_value 0 (firstn n t) in
  if (ULLONG_MAX <? v)%N then (ULLONG_MAX, true, skipn n t) else (if neg then wrap64 (2 ^ 64 - v) else v, false, skipn n t).
Proof. reflexivity. Qed.

Lemma strtoull_taken s v : strtoull s = (v, false, []) <-> taken_for s v.
Proof.
  rewrite strtoull_eq. unfold taken_for. split.
  - destruct (span_split isspace s) as (ws & _ & E1 & W & D1). set (t := skipn (span isspace s) s) in *. clearbody t.
    destruct (after_sign t) as [neg t'] eqn:S.
    destruct (span_split isdigit t') as (ds & Ed & E2 & Dg & _). 
    destruct (Nat.eqb_spec (span isdigit t') 0) as [Z|Z].
    { intros [= <- ->]. left. auto. }
    set (n := span isdigit t') in *. rewrite Ed. set (r := skipn n t') in *.
    destruct (N.ltb_spec ULLONG_MAX (digits_value 0 ds)) as [L|L]; [intros H; discriminate H|]. intros H.
    right. injection H as H1 H2. rewrite H2, app_nil_r in E2. 
    assert (Vd : digits_value 0 ds = dec_value ds) by apply digits_dec. rewrite Vd in *.
    assert (Nd : number ds).
    { split; [intros ->; cbn [firstn] in Ed; destruct t'; [cbn in Z; unfold n in Z; cbn in Z; lia|]|].
      - destruct n; [lia|discriminate Ed].
      - intros c Hc. apply isdigit_b. rewrite forallb_forall in Dg. auto. }
    assert (Bound : (dec_value ds < 2 ^ 64)%N) by (unfold ULLONG_MAX in L; change (2 ^ 64)%N with 18446744073709551616%N; lia).
    assert (Wb : forall c, In c ws -> a_blank c) by (intros c Hc; apply isspace_b; rewrite forallb_forall in W; auto).
    unfold after_sign in S. destruct t as [|c t0].
    { injection S as <- <-. destruct ds; [|discriminate E2]. destruct Nd; congruence. }
    destruct (Ascii.eqb_spec c "-"%char) as [->|_]; [|destruct (Ascii.eqb_spec c "+"%char) as [->|_]]; injection S as <- <-.
    + exists ws, (B "-"), ds. split; [rewrite E1, E2; reflexivity|]. split; [exact Wb|]. split; [exact Nd|]. split; [exact Bound|].
      right. split; [reflexivity|]. symmetry. exact H1.
    + exists ws, (B "+"), ds. split; [rewrite E1, E2; reflexivity|]. split; [exact Wb|]. split; [exact Nd|]. split; [exact Bound|].
      left. split; [right; reflexivity|]. symmetry. exact H1.
    + exists ws, [], ds. split; [rewrite E1, E2; reflexivity|]. split; [exact Wb|]. split; [exact Nd|]. split; [exact Bound|].
      left. split; [left; reflexivity|]. symmetry. exact H1.
  - intros [[-> ->]|(ws & sign & ds & -> & W & [N0 Nd] & Bound & H)]; [reflexivity|].
    assert (Wb : forallb isspace ws = true) by (apply forallb_forall; intros c Hc; apply isspace_b; auto).
    assert (Db : forallb isdigit ds = true) by (apply forallb_forall; intros c Hc; apply isdigit_b; auto).
    destruct ds as [|d0 ds']; [congruence|]. set (ds := d0 :: ds') in *.
    assert (D0 : isdigit d0 = true) by (apply isdigit_b, Nd; left; reflexivity). pose proof (digit_other _ D0) as (O1 & O2 & O3).
    assert (Sp : span isspace (ws ++ sign ++ ds) = length ws).
    { apply span_app; [exact Wb|]. destruct H as [[[->| ->] _]|[-> _]]; [exact O1|reflexivity|reflexivity]. }
    rewrite Sp, skipn_len.
    assert (AS : after_sign (sign ++ ds) = (match sign with c :: _ => Ascii.eqb c "-"%char | [] => false end, ds)).
    { destruct H as [[[->| ->] _]|[-> _]]; [|reflexivity|reflexivity]. cbn [app after_sign ds]. rewrite O2, O3. reflexivity. }
    rewrite AS. cbv beta iota zeta. assert (SD : span isdigit ds = length ds).
    { rewrite <- (app_nil_r ds) at 1. apply span_app; [exact Db|exact I]. }
    rewrite SD, firstn_all, skipn_all2 by lia. change (length ds =? 0) with false. cbv iota.
    assert (Vd : digits_value 0 ds = dec_value ds) by apply digits_dec. rewrite Vd.
    destruct (N.ltb_spec ULLONG_MAX (dec_value ds)) as [L|L].
    { unfold ULLONG_MAX in L. change (2 ^ 64)%N with 18446744073709551616%N in Bound. lia. }
    destruct H as [[[->| ->] ->]|[-> ->]]; reflexivity.
Qed.
Lemma env_lemma s min max v : env_get_ull (Some s) min max = (0%Z, Some v) <->
  taken_for s v /\ (min = max \/ (min <= v <= max)%N).
Proof.
  rewrite <- strtoull_taken. unfold env_get_ull. destruct (strtoull s) as [[ret err] p].
  destruct err; cbn [orb]; [split; [discriminate|intros [H _]; discriminate H]|].
  destruct (Nat.eqb_spec (length p) 0) as [P|P]; cbn [negb].
  - destruct p; [|discriminate P]. destruct (N.eqb_spec min max) as [E|E]; cbn [negb andb].
    + split; [intros [= ->]; auto|intros [[= ->] _]; reflexivity].
    + destruct (N.ltb_spec ret min), (N.ltb_spec max ret); cbn [orb]; (split; [|intros [[= <-] [X|X]]; try lia; try reflexivity]); try discriminate.
      intros [= <-]. split; [reflexivity|]. right. lia.
  - split; [discriminate|]. intros [[= _ ->] _]. elim P. reflexivity.
Qed.

(* Kernel arguments *)
Definition limit_of (w : bytes) : nat := match index EQ w with Some v => v | None => length w end.
Definition matches (arg w : bytes) : bool := (length arg =? limit_of w) && starts_with false w arg.
Fixpoint pick (ws : list bytes) (arg : bytes) (want : bool) : Z * option bytes :=
  match ws with
  | [] => (0%Z, None)
  | w :: ws => if matches arg w then
                 if want then match index EQ w with None => ((- EINVAL)%Z, None) | Some v => (1%Z, Some (skipn v w)) end else (1%Z, None)
               else pick ws arg want
  end.
Lemma index_app c w r : index c (w ++ r) = match index c w with Some v => Some v | None => option_map (Nat.add (length w)) (index c r) end.
Proof.
  induction w as [|x w IH]; cbn [app index length]; [destruct (index c r); reflexivity|].
  destruct (Ascii.eqb x c); [reflexivity|]. rewrite IH. destruct (index c w); [reflexivity|]. destruct (index c r); reflexivity.
Qed.
Lemma limit_le w : limit_of w <= length w.
Proof. unfold limit_of. destruct (index EQ w) eqn:E; [|lia]. apply index_lt in E. lia. Qed.
Lemma starts_app w r arg : length arg <= length w -> starts_with false (w ++ r) arg = starts_with false w arg.
Proof. intros L. unfold starts_with. rewrite firstn_app. replace (length arg - length w) with 0 by lia. cbn [firstn]. rewrite app_nil_r. reflexivity. Qed.

Lemma arg_loop_pick arg want fuel : forall s, length s < fuel ->
  exists ws, words DELIM [] None None s = Some ws /\ arg_loop fuel s arg want = pick ws arg want.
Proof.
  induction fuel as [|fuel IH]; intros s L; [lia|]. cbn [arg_loop].
  destruct (span_split (inset DELIM) s) as (u & _ & E1 & U & D1). set (s1 := skipn (span (inset DELIM) s) s) in *. clearbody s1.
  assert (Ew : words DELIM [] None None s = words DELIM [] None None s1) by (rewrite E1; apply words_delims; exact U).
  rewrite Ew. assert (L1 : length s1 <= length s) by (rewrite E1, app_length; lia).
  destruct s1 as [|c t]; [exists []; auto|]. set (s1 := c :: t) in *.
  destruct (span_split (fun c => negb (inset DELIM c)) s1) as (w & Efw & E2 & W & D2).
  set (n := span (fun c => negb (inset DELIM c)) s1) in *. set (r := skipn n s1) in *.
  assert (W0 : w <> []).
  { rewrite <- Efw. unfold n, s1. cbn [span]. rewrite D1. discriminate. }
  assert (Ln : n = length w).
  { unfold n. rewrite E2. apply span_app; [exact W|]. clearbody r. destruct r; [exact I|exact D2]. }
  assert (Lw : 0 < length w) by (destruct w; [congruence|cbn; lia]).
  assert (Hw : words DELIM [] None None s1 = words DELIM [] (Some w) None r).
  { rewrite E2. rewrite words_plain; [reflexivity|exact W0|exact W]. }
  rewrite Ln. clearbody r.
  assert (Ls1 : length s1 = length w + length r) by (rewrite E2, app_length; reflexivity).
  assert (NEXT : (if length w <? length s1 then Some (length w) else None) = match r with [] => None | _ => Some (length w) end).
  { rewrite Ls1. destruct r; cbn [length]; [destruct (Nat.ltb_spec (length w) (length w + 0)); [lia|reflexivity]|].
    destruct (Nat.ltb_spec (length w) (length w + S (length r))); [reflexivity|lia]. }
  rewrite NEXT.
  assert (VAL : match index EQ s1, match r with [] => None | _ => Some (length w) end with
     | Some v, Some n => if n <=? v then None else Some v | v, _ => v end = index EQ w).
  { rewrite E2, index_app. destruct (index EQ w) as [v|] eqn:V.
    - apply index_lt in V. destruct r; [reflexivity|]. destruct (Nat.leb_spec (length w) v); [lia|reflexivity].
    - destruct (index EQ r) as [v|] eqn:Er; cbn [option_map]; [|reflexivity]. destruct r; [discriminate Er|].
      destruct (Nat.leb_spec (length w) (length w + v)); [reflexivity|lia]. }
  rewrite VAL.
  assert (LIM : match index EQ w, match r with [] => None | _ => Some (length w) end with Some v, _ => v | None, Some n => n | None, None => length s1 end = limit_of w).
  { unfold limit_of. destruct (index EQ w); [reflexivity|]. destruct r; [rewrite Ls1; cbn [length]; lia|reflexivity]. }
  rewrite LIM.
  assert (LIM2 : match match r with [] => None | _ => Some (length w) end with Some n => n | None => length s1 end = length w).
  { destruct r; [rewrite Ls1; cbn [length]; lia|reflexivity]. }
  rewrite LIM2.
  assert (M : (length arg =? limit_of w) && starts_with false s1 arg = matches arg w).
  { unfold matches. destruct (Nat.eqb_spec (length arg) (limit_of w)) as [X|X]; [|reflexivity]. cbn [andb].
    rewrite E2. apply starts_app. rewrite X. apply limit_le. }
  rewrite M.
  assert (WS : exists ws, words DELIM [] (Some w) None r = Some (w :: ws) /\ (matches arg w = false ->
     match match r with [] => None | _ => Some (length w) end with Some n => arg_loop fuel (skipn n s1) arg want | None => (0%Z, None) end = pick ws arg want)).
  { destruct r as [|x r']; [exists []; split; reflexivity|].
    destruct (IH (x :: r')) as (ws & Y1 & Y2); [cbn [length] in *; lia|]. exists ws.
    assert (Dx : inset DELIM x = true) by (destruct (inset DELIM x); [reflexivity|discriminate D2]).
    split.
    - change (x :: r') with ([x] ++ r'). rewrite words_end by (discriminate || (cbn [forallb]; rewrite Dx; reflexivity)).
      change (x :: r') with ([x] ++ r') in Y1. rewrite words_delims in Y1 by (cbn [forallb]; rewrite Dx; reflexivity). rewrite Y1. reflexivity.
    - intros _. rewrite E2, skipn_len. exact Y2. }
  destruct WS as (ws & A1 & A2). exists (w :: ws). rewrite Hw. split; [exact A1|]. cbn [pick].
  destruct (matches arg w); [|auto]. destruct want; [|reflexivity]. destruct (index EQ w) as [v|] eqn:V; [|reflexivity].
  apply index_lt in V. do 2 f_equal. rewrite E2, skipn_app, firstn_app. rewrite skipn_length.
  replace (length w - v - (length w - v)) with 0 by lia. cbn [firstn]. rewrite app_nil_r. apply firstn_all2. rewrite skipn_length. lia.
Qed.

Lemma matches_arg arg w : ~ In EQ arg -> (matches arg w = true <-> is_arg arg w).
Proof.
  intros N. assert (IA : forall v, index EQ (arg ++ EQ :: v) = Some (length arg)).
  { intros v. rewrite index_app. destruct (index EQ arg) as [k|] eqn:I.
    - apply index_split in I as [I _]. elim N. rewrite I. apply in_or_app. right. left. reflexivity.
    - cbn [index]. rewrite Ascii.eqb_refl. cbn [option_map]. f_equal. lia. }
  assert (IN : index EQ arg = None).
  { destruct (index EQ arg) as [k|] eqn:I; [|reflexivity]. apply index_split in I as [I _]. elim N. rewrite I. apply in_or_app. right. left. reflexivity. }
  unfold matches, is_arg. rewrite andb_true_iff, Nat.eqb_eq. split.
  - intros [L S0]. unfold starts_with in S0. destruct (list_eq_dec _ _ _) as [E|]; [|discriminate]. cbn [fold_case] in E.
    unfold limit_of in L. destruct (index EQ w) as [v|] eqn:I.
    + apply index_split in I as [I _]. right. exists (skipn (S v) w). rewrite <- L in I. rewrite E in I. rewrite I at 1. rewrite L. reflexivity.
    + left. rewrite L, firstn_all in E. exact E.
  - unfold starts_with, limit_of. intros [->|[v ->]].
    + rewrite IN, firstn_all. split; [reflexivity|]. destruct (list_eq_dec _ _ _); [reflexivity|contradiction].
    + change (B "=" ++ v) with (EQ :: v). rewrite IA. split; [reflexivity|].
      rewrite firstn_app, Nat.sub_diag, firstn_all. cbn [firstn]. rewrite app_nil_r. destruct (list_eq_dec _ _ _); [reflexivity|contradiction].
Qed.
Lemma pick_none arg want ws : ~ In EQ arg -> (forall w, In w ws -> ~ is_arg arg w) -> pick ws arg want = (0%Z, None).
Proof.
  intros N. induction ws as [|w ws IH]; intros H; [reflexivity|]. cbn [pick].
  destruct (matches arg w) eqn:M; [apply matches_arg in M; [|exact N]; elim (H w (or_introl eq_refl) M)|].
  apply IH. intros x Hx. apply H. right. exact Hx.
Qed.
Lemma pick_first arg want ws w : ~ In EQ arg -> first_arg arg ws w -> pick ws arg want =
  if want then match index EQ w with None => ((- EINVAL)%Z, None) | Some v => (1%Z, Some (skipn v w)) end else (1%Z, None).
Proof.
  intros N (a & b & -> & A & F). induction a as [|x a IH]; cbn [app pick].
  - apply matches_arg in A; [|exact N]. rewrite A. reflexivity.
  - destruct (matches arg x) eqn:M; [apply matches_arg in M; [|exact N]; elim (F x (or_introl eq_refl) M)|].
    apply IH. intros y Hy. apply F. right. exact Hy.
Qed.
Lemma first_arg_dec arg ws : ~ In EQ arg -> (exists w, first_arg arg ws w) \/ (forall w, In w ws -> ~ is_arg arg w).
Proof.
  intros N. induction ws as [|x ws IH]; [right; intros w []|]. destruct (matches arg x) eqn:M.
  - left. exists x, [], ws. split; [reflexivity|]. split; [apply matches_arg; auto|]. intros y [].
  - assert (X : ~ is_arg arg x) by (rewrite <- matches_arg by exact N; congruence).
    destruct IH as [(w & a & b & -> & A & F)|H].
    + left. exists w, (x :: a), b. split; [reflexivity|]. split; [exact A|]. intros y [<-|Hy]; [exact X|exact (F y Hy)].
    + right. intros w [<-|Hw]; [exact X|exact (H w Hw)].
Qed.
Lemma kernel_eq line cm arg want ws : line <> [] -> cmdline_words line ws ->
  kernel_get_arg line cm (Some arg) want =
    let '(r, v) := pick ws arg want in ((0 <? r)%Z, v, if (r <? 0)%Z then r else 0%Z, line).
Proof.
  intros NE W. unfold kernel_get_arg. destruct line as [|c l]; [congruence|]. cbn [Z.eqb].
  destruct (arg_loop_pick arg want (S (length (c :: l))) (c :: l) ltac:(lia)) as (ws' & A & B').
  unfold cmdline_words, words_of in W. cbn [or_empty] in W. change (map ascii_of_nat _) with DELIM in W. rewrite A in W. injection W as ->.
  change (B' = B') in B' || idtac. rewrite B'. reflexivity.
Qed.
Lemma kernel_present_lemma line cm arg ws : line <> [] -> ~ In EQ arg -> cmdline_words line ws ->
  exists b, kernel_get_arg line cm (Some arg) false = (b, None, 0%Z, line) /\ (b = true <-> exists w, In w ws /\ is_arg arg w).
Proof.
  intros NE N W. rewrite (kernel_eq _ _ _ _ _ NE W). destruct (first_arg_dec arg ws N) as [(w & F)|F].
  - rewrite (pick_first _ _ _ _ N F). exists true. split; [reflexivity|]. split; [|reflexivity]. intros _.
    destruct F as (a & b & -> & A & _). exists w. split; [apply in_or_app; right; left; reflexivity|exact A].
  - rewrite (pick_none _ _ _ N F). exists false. split; [reflexivity|]. split; [discriminate|]. intros (w & I & A). elim (F w I A).
Qed.
Lemma kernel_value_lemma line cm arg ws : line <> [] -> ~ In EQ arg -> cmdline_words line ws ->
  (forall v, first_arg arg ws (arg ++ B "=" ++ v) -> kernel_get_arg line cm (Some arg) true = (true, Some (B "=" ++ v), 0%Z, line))
  /\ (first_arg arg ws arg -> kernel_get_arg line cm (Some arg) true = (false, None, (- EINVAL)%Z, line))
  /\ ((forall w, In w ws -> ~ is_arg arg w) -> kernel_get_arg line cm (Some arg) true = (false, None, 0%Z, line)).
Proof.
  intros NE N W. rewrite (kernel_eq _ _ _ _ _ NE W).
  assert (IN : index EQ arg = None).
  { destruct (index EQ arg) as [k|] eqn:I; [|reflexivity]. apply index_split in I as [I _]. elim N. rewrite I. apply in_or_app. right. left. reflexivity. }
  split; [|split].
  - intros v F. rewrite (pick_first _ _ _ _ N F). change (B "=" ++ v) with (EQ :: v). rewrite index_app, IN. cbn [index]. rewrite Ascii.eqb_refl.
    cbn [option_map]. rewrite Nat.add_0_r, skipn_len. reflexivity.
  - intros F. rewrite (pick_first _ _ _ _ N F), IN. reflexivity.
  - intros F. rewrite (pick_none _ _ _ N F). reflexivity.
Qed.
Lemma text_of_id b : ~ In NUL b -> text_of b = b.
Proof.
  intros N. unfold text_of. rewrite <- (app_nil_r b) at 1. rewrite span_app; [apply firstn_all| |exact I].
  apply forallb_forall. intros c Hc. apply negb_true_iff, Ascii.eqb_neq. intros ->. contradiction.
Qed.
Lemma kernel_reads_lemma ev file arg want : file <> [] -> ~ In NUL file -> (forall e, ~ In (Failed e) ev) ->
  kernel_get_arg [] (inr (ev, file)) (Some arg) want = kernel_get_arg (firstn 4096 file) (inr (ev, file)) (Some arg) want.
Proof.
  intros NE N NF. unfold kernel_get_arg, get_proc_cmdline.
  destruct (read_loop ev file 4096 []) as [[r b] rest] eqn:E. apply read_loop_spec in E.
  destruct E as [(-> & -> & ->)|(e & k & A & _)]; [|elim (NF e A)]. cbn [app].
  destruct (Z.ltb_spec (Z.of_nat (length (firstn 4096 file))) 0); [lia|].
  assert (NN : ~ In NUL (firstn 4096 file)) by (intro X; apply N; rewrite <- (firstn_skipn 4096 file); apply in_or_app; auto).
  rewrite (text_of_id _ NN).
  assert (X : firstn 4096 file <> []) by (destruct file; [congruence|discriminate]).
  destruct (firstn 4096 file); [congruence|reflexivity].
Qed.

(* sysfs *)
Definition NL : byte := "010"%char.
Lemma text_of_text t r : ~ In NUL t -> text_of (t ++ NUL :: r) = t.
Proof.
  intros N. unfold text_of. rewrite span_app; [|apply forallb_forall; intros c Hc; apply negb_true_iff, Ascii.eqb_neq; intros ->; contradiction|reflexivity].
  rewrite firstn_app, Nat.sub_diag, firstn_all. cbn [firstn]. apply app_nil_r.
Qed.
Lemma sysfs_lemma file line b : file <> [] -> ~ In NUL file -> ~ In NL line ->
  (file = line \/ exists rest, file = line ++ [NL] ++ rest) -> 2 <= length b ->
  exists b', sysfs_get (inr file) b = Ok (0%Z, b', Some (length (firstn (length b - 1) line) + 1))
    /\ length b' = length b /\ text b' (firstn (length b - 1) line).
Proof.
  intros NE NN NL' F L. unfold sysfs_get, fgets. destruct (length b) as [|n] eqn:Lb; [lia|]. replace (S n - 1) with n by lia.
  assert (Nline : ~ In NUL line). { intro X. apply NN. destruct F as [->|[rest ->]]; [exact X|apply in_or_app; auto]. }
  assert (Sp : span (fun c => negb (Ascii.eqb c NL)) file = length line).
  { assert (forallb (fun c => negb (Ascii.eqb c NL)) line = true).
    { apply forallb_forall. intros c Hc. apply negb_true_iff, Ascii.eqb_neq. intros ->. contradiction. }
    destruct F as [->|[rest ->]].
    - rewrite <- (app_nil_r line) at 1. apply span_app; [assumption|exact I].
    - apply span_app; [assumption|reflexivity]. }
  change ("010"%char) with NL. rewrite Sp.
  assert (D : exists x, firstn (S (length line)) file = line ++ x /\ (x = [] \/ x = [NL]) /\ (line = [] -> x = [NL])).
  { destruct F as [->|[rest ->]].
    - exists []. rewrite app_nil_r, firstn_all2 by lia. split; [reflexivity|]. split; [auto|]. congruence.
    - exists [NL]. rewrite firstn_app, firstn_all2 by lia. replace (S (length line) - length line) with 1 by lia. auto. }
  destruct D as (x & -> & X & XL). set (t := firstn n line).
  assert (Nt : ~ In NUL t) by (intro Y; apply Nline; rewrite <- (firstn_skipn n line); apply in_or_app; auto).
  assert (D : exists y, firstn n (line ++ x) = t ++ y /\ (y = [] \/ y = [NL]) /\ (t = [] -> y = [NL])).
  { unfold t. rewrite firstn_app. destruct X as [->| ->].
    - exists []. rewrite firstn_nil. split; [reflexivity|]. split; [auto|]. destruct line; [intros _; discriminate (XL eq_refl)|].
      destruct n; [lia|discriminate].
    - destruct (le_lt_dec n (length line)).
      + exists []. replace (n - length line) with 0 by lia. split; [reflexivity|]. split; [auto|].
        destruct line; [cbn in l; lia|]. destruct n; [lia|discriminate].
      + exists [NL]. rewrite (firstn_all2 [NL]) by (cbn; lia). auto. }
  destruct D as (y & Ey & Y & YL). rewrite Ey.
  assert (Lty : length (t ++ y) <= n) by (rewrite <- Ey, firstn_length; lia).
  destruct (Nat.eqb_spec (length (t ++ y)) 0) as [Z|Z].
  { exfalso. destruct t; [|discriminate Z]. rewrite (YL eq_refl) in Z. discriminate Z. }
  cbn [andb]. rewrite put_start by (rewrite app_length; cbn [length]; lia). cbn [obind].
  set (r := skipn (length ((t ++ y) ++ [NUL])) b).
  assert (Nty : ~ In NUL (t ++ y)).
  { rewrite not_in_app. split; [exact Nt|]. destruct Y as [->| ->]; [intros []|intros [C|[]]; discriminate C]. }
  assert (E : ((t ++ y) ++ [NUL]) ++ r = (t ++ y) ++ NUL :: r) by (rewrite <- app_assoc; reflexivity). rewrite E.
  rewrite (text_of_text _ _ Nty).
  assert (Lr : length ((t ++ y) ++ NUL :: r) = S n).
  { unfold r. rewrite (app_length (t ++ y) (NUL :: _)). cbn [length]. rewrite skipn_length, (app_length (t ++ y) [NUL]). cbn [length]. lia. }
  destruct Y as [->| ->].
  - rewrite app_nil_r in *. destruct (nth_error (t ++ NUL :: r) (length t - 1)) as [c|] eqn:Ec.
    2:{ apply nth_error_None in Ec. lia. }
    assert (CN : c <> NL).
    { intros ->. rewrite nth_error_app1 in Ec by lia. apply nth_error_In in Ec. apply NL'. rewrite <- (firstn_skipn n line). apply in_or_app. auto. }
    apply Ascii.eqb_neq in CN. rewrite CN, andb_false_r. eexists. split; [reflexivity|]. split; [exact Lr|]. split; [exact Nt|eauto].
  - rewrite app_length in *. cbn [length] in *. replace (length t + 1 - 1) with (length t) by lia.
    rewrite <- app_assoc in *. cbn [app] in *. rewrite nth_error_app2, Nat.sub_diag by lia. cbn [nth_error].
    destruct (Nat.eqb_spec (length t + 1) 0); [lia|]. cbn [negb andb]. rewrite Ascii.eqb_refl.
    rewrite put_ok by reflexivity. cbn [obind]. eexists. split; [reflexivity|]. split.
    + rewrite app_length in Lr |- *. cbn [length] in Lr |- *. lia.
    + split; [exact Nt|eauto].
Qed.
Lemma sysfs_empty_lemma b : 2 <= length b -> sysfs_get (inr []) b = Ok ((- EIO)%Z, b, None).
Proof. intros L. unfold sysfs_get, fgets. destruct (length b) as [|[|n]]; [lia|lia|]. reflexivity. Qed.
