From Verif Require Import Base Buf_IO Tok_Model Tok_Spec Tok_Proofs UtilStr_Model UtilStr_Spec UtilStr_Proofs.
From Coq Require DecimalZ DecimalFacts.
Local Open Scope nat_scope.

(* Occurrences *)
Lemma same_fold ic a b : same ic a b <-> fold_case ic a = fold_case ic b.
Proof. destruct ic; reflexivity. Qed.
Lemma fold_case_length ic a : length (fold_case ic a) = length a.
Proof. destruct ic; [apply map_length|reflexivity]. Qed.
Lemma starts_occurs ic h n i : i <= length h -> (starts_with ic (skipn i h) n = true <-> occurs_as ic h n i).
Proof.
  intros L. unfold starts_with, occurs_as. split.
  - destruct (list_eq_dec _ _ _) as [E|]; [|discriminate]. intros _.
    exists (firstn i h), (firstn (length n) (skipn i h)), (skipn (length n) (skipn i h)).
    rewrite firstn_skipn, firstn_skipn. split; [reflexivity|]. split; [apply firstn_length_le; lia|]. apply same_fold. exact E.
  - intros (a & m & b & -> & <- & S). rewrite skipn_len. apply same_fold in S.
    assert (length m = length n) by (rewrite <- (fold_case_length ic m), S; apply fold_case_length).
    rewrite <- H, firstn_app, Nat.sub_diag, firstn_all. cbn [firstn]. rewrite app_nil_r.
    destruct (list_eq_dec _ _ _); [reflexivity|contradiction].
Qed.
Lemma occurs_bound ic h n i : occurs_as ic h n i -> i + length n <= length h.
Proof.
  intros (a & m & b & -> & <- & S). apply same_fold in S. rewrite !app_length, <- (fold_case_length ic n), <- S, fold_case_length. lia.
Qed.
Lemma occurs_exact h n i : occurs h n i <-> occurs_as false h n i.
Proof. unfold occurs, occurs_as. cbn [same]. split; [intros (a & b & E & L); exists a, n, b; auto|intros (a & m & b & E & L & ->); eauto]. Qed.

Lemma rstr_loop_spec h n p : p <= length h -> match rstr_loop p h n with
  | Some i => 0 < i <= p /\ occurs h n i /\ forall j, i < j <= p -> ~ occurs h n j
  | None => forall j, 0 < j <= p -> ~ occurs h n j
  end.
Proof.
  induction p as [|p IH]; intros L; cbn [rstr_loop]; [intros; lia|].
  destruct (starts_with false (skipn (S p) h) n) eqn:E.
  - split; [lia|]. split; [apply occurs_exact, starts_occurs; auto|]. intros; lia.
  - assert (X : ~ occurs h n (S p)) by (rewrite occurs_exact, <- starts_occurs by exact L; congruence).
    specialize (IH ltac:(lia)). destruct (rstr_loop p h n) as [i|].
    + destruct IH as (A & A2 & A3). split; [lia|]. split; [exact A2|]. intros j Hj.
      destruct (Nat.eq_dec j (S p)) as [->|]; [exact X|apply A3; lia].
    + intros j Hj. destruct (Nat.eq_dec j (S p)) as [->|]; [exact X|apply IH; lia].
Qed.
Lemma rstr_lemma h n :
  (forall i, rstr h n = Some i <-> 0 < i /\ occurs h n i /\ forall j, occurs h n j -> j <= i)
  /\ (rstr h n = None <-> forall j, occurs h n j -> j = 0).
Proof.
  assert (B : forall j, occurs h n j -> j + length n <= length h) by (intros j H; apply occurs_exact in H; exact (occurs_bound _ _ _ _ H)).
  unfold rstr. destruct (Nat.ltb_spec (length h) (length n)) as [L|L].
  - split; [intros i; split; [discriminate|intros (_ & H & _); apply B in H; lia]|].
    split; [|reflexivity]. intros _ j H. apply B in H. lia.
  - pose proof (rstr_loop_spec h n (length h - length n) ltac:(lia)) as H. destruct (rstr_loop _ h n) as [i|].
    + destruct H as (A & A2 & A3). split.
      * intros i'. split.
        -- intros [= <-]. split; [lia|]. split; [exact A2|]. intros j Hj. pose proof (B j Hj).
           destruct (le_lt_dec j i); [assumption|]. elim (A3 j); [lia|exact Hj].
        -- intros (P & O & M). f_equal. pose proof (M i A2). pose proof (B _ O).
           destruct (Nat.eq_dec i i'); [assumption|]. elim (A3 i'); [lia|exact O].
      * split; [discriminate|]. intros H. specialize (H i A2). lia.
    + split.
      * intros i. split; [discriminate|]. intros (P & O & _). pose proof (B _ O). elim (H i); [lia|exact O].
      * split; [|reflexivity]. intros _ j Hj. pose proof (B _ Hj). destruct (Nat.eq_dec j 0); [assumption|]. elim (H j); [lia|exact Hj].
Qed.

Lemma find_str_spec ic n h : match find_str ic h n with
  | Some i => occurs_as ic h n i /\ forall j, j < i -> ~ occurs_as ic h n j
  | None => forall j, ~ occurs_as ic h n j
  end.
Proof.
  assert (SH : forall c t j, occurs_as ic (c :: t) n (S j) <-> occurs_as ic t n j).
  { intros c t j. split.
    - intros (a & m & b & E & L & S). destruct a as [|x a]; [discriminate L|]. injection E as -> ->. injection L as L. exists a, m, b. auto.
    - intros (a & m & b & -> & <- & S). exists (c :: a), m, b. auto. }
  induction h as [|c t IH]; cbn [find_str].
  - destruct (starts_with ic [] n) eqn:E.
    + split; [apply (starts_occurs ic [] n 0); [cbn; lia|exact E]|]. intros; lia.
    + intros j H. pose proof (occurs_bound _ _ _ _ H) as L. cbn [length] in L. assert (j = 0) by lia. subst.
      apply (starts_occurs ic [] n 0) in H; [cbn [skipn] in H; congruence|cbn; lia].
  - destruct (starts_with ic (c :: t) n) eqn:E.
    + split; [apply (starts_occurs ic (c :: t) n 0); [cbn; lia|exact E]|]. intros; lia.
    + assert (X : ~ occurs_as ic (c :: t) n 0) by (rewrite <- starts_occurs by (cbn; lia); cbn [skipn]; congruence).
      destruct (find_str ic t n) as [i|]; cbn [option_map].
      * destruct IH as [A A2]. split; [apply SH; exact A|]. intros [|j] L; [exact X|]. rewrite SH. apply A2. lia.
      * intros [|j]; [exact X|]. rewrite SH. apply IH.
Qed.
Lemma occurs_skip ic h n k i : k <= length h -> (occurs_as ic (skipn k h) n i <-> occurs_as ic h n (k + i)).
Proof.
  intros L. split; intros H; pose proof (occurs_bound _ _ _ _ H) as Bd; rewrite ?skipn_length in Bd.
  - apply starts_occurs; [lia|]. apply starts_occurs in H; [|rewrite skipn_length; lia]. rewrite skipn_add in H. exact H.
  - apply starts_occurs; [rewrite skipn_length; lia|]. apply starts_occurs in H; [|lia]. rewrite skipn_add. exact H.
Qed.
Definition first_from (P : nat -> Prop) (k i : nat) : Prop := k <= i /\ P i /\ forall j, k <= j < i -> ~ P j.
Lemma match_b ic h s k : k <= length h -> (length s = 0 -> True) ->
  ((length s =? 0) || starts_with ic (skipn k h) s = true <-> occurs_as ic h s k).
Proof.
  intros L _. destruct s as [|c s]; cbn [length Nat.eqb orb].
  - split; [|reflexivity]. intros _. exists (firstn k h), [], (skipn k h). cbn [app]. rewrite firstn_skipn.
    split; [reflexivity|]. split; [apply firstn_length_le; lia|]. destruct ic; reflexivity.
  - apply starts_occurs. exact L.
Qed.
Lemma combstr_lemma h p n s ic i : combstr h p n s ic = Some i <->
  length (or_empty p) + length (or_empty n) + length (or_empty s) <= length h
  /\ occurs_as ic h (or_empty p) 0 /\ occurs_as ic h (or_empty s) (length h - length (or_empty s))
  /\ match n with None => i = 0
     | Some n => length (or_empty p) <= i /\ occurs_as ic h n i /\ forall j, length (or_empty p) <= j < i -> ~ occurs_as ic h n j end.
Proof.
  unfold combstr. set (p' := or_empty p). set (s' := or_empty s).
  destruct (Nat.ltb_spec (length h) (length p' + length (or_empty n) + length s')) as [L|L]; [split; [discriminate|lia]|].
  pose proof (match_b ic h p' 0 ltac:(lia) (fun _ => I)) as MP. cbn [skipn] in MP.
  pose proof (match_b ic h s' (length h - length s') ltac:(lia) (fun _ => I)) as MS.
  rewrite <- MP, <- MS. clear MP MS.
  destruct ((length p' =? 0) || starts_with ic h p'); cycle 1.
  { cbn [andb]. split; [|intros (_ & X & _); discriminate X]. destruct n as [n|]; [destruct (find_str _ _ _)|]; discriminate. }
  destruct ((length s' =? 0) || starts_with ic (skipn (length h - length s') h) s'); cycle 1.
  { cbn [andb]. split; [|intros (_ & _ & X & _); discriminate X]. destruct n as [n|]; [destruct (find_str _ _ _)|]; discriminate. }
  cbn [andb]. destruct n as [n|]; cycle 1.
  { split; [intros [= <-]; auto|intros (_ & _ & _ & ->); reflexivity]. }
  assert (LP : length p' <= length h) by lia.
  pose proof (find_str_spec ic n (skipn (length p') h)) as F. destruct (find_str ic (skipn (length p') h) n) as [k|].
  - destruct F as [F1 F2]. apply occurs_skip in F1; [|exact LP]. split.
    + intros [= <-]. split; [exact L|]. split; [reflexivity|]. split; [reflexivity|]. split; [lia|]. split; [exact F1|].
      intros j Hj Oj. replace j with (length p' + (j - length p')) in Oj by lia. apply occurs_skip in Oj; [|exact LP].
      apply (F2 (j - length p')); [lia|exact Oj].
    + intros (_ & _ & _ & G1 & G2 & G3). f_equal. destruct (lt_eq_lt_dec (length p' + k) i) as [[X|X]|X]; [|exact X|].
      * elim (G3 (length p' + k)); [lia|exact F1].
      * exfalso. replace i with (length p' + (i - length p')) in G2 by lia. apply occurs_skip in G2; [|exact LP].
        apply (F2 (i - length p')); [lia|exact G2].
  - split; [discriminate|]. intros (_ & _ & _ & G1 & G2 & _). exfalso.
    replace i with (length p' + (i - length p')) in G2 by lia. apply occurs_skip in G2; [|exact LP]. exact (F _ G2).
Qed.
Lemma combstr_concat_lemma p n s ic : exists i, combstr (p ++ n ++ s) (Some p) (Some n) (Some s) ic = Some i.
Proof.
  destruct (combstr (p ++ n ++ s) (Some p) (Some n) (Some s) ic) as [i|] eqn:E; [eauto|]. exfalso.
  unfold combstr in E. cbn [or_empty] in E. rewrite !app_length in E.
  destruct (Nat.ltb_spec (length p + (length n + length s)) (length p + length n + length s)) as [L|L]; [lia|].
  assert (R : forall x, same ic x x) by (intros; destruct ic; reflexivity).
  pose proof (match_b ic (p ++ n ++ s) p 0 ltac:(lia) (fun _ => I)) as MP. cbn [skipn] in MP.
  pose proof (match_b ic (p ++ n ++ s) s (length p + (length n + length s) - length s) ltac:(rewrite !app_length; lia) (fun _ => I)) as MS.
  destruct MP as [_ ->] in E; [|exists [], p, (n ++ s); auto].
  destruct MS as [_ ->] in E; [|exists (p ++ n), s, []; rewrite app_nil_r, <- app_assoc; split; [reflexivity|]; split; [rewrite app_length; lia|auto]].
  pose proof (find_str_spec ic n (skipn (length p) (p ++ n ++ s))) as F. cbn [andb] in E.
  destruct (find_str _ _ _) as [k|]; [discriminate|]. apply (F 0). rewrite skipn_len. exists [], n, s. auto.
Qed.

(* Copies *)
Lemma upto_text m len s : text_upto m len s -> upto len m = Ok s.
Proof.
  revert m len. induction s as [|c s IH]; intros m len [N H].
  - destruct len as [|len]; [reflexivity|]. destruct H as [[_ [r ->]]|[X _]]; [reflexivity|discriminate X].
  - assert (CN : Ascii.eqb c NUL = false) by (apply Ascii.eqb_neq; intros ->; apply N; left; reflexivity).
    assert (Ns : ~ In NUL s) by (intro X; apply N; right; exact X).
    destruct len as [|len]; [destruct H as [[X _]|[X _]]; cbn in X; lia|].
    destruct H as [[L [r ->]]|[L [r ->]]]; cbn [app upto]; rewrite CN; cbn [length] in L.
    + rewrite (IH (s ++ NUL :: r) len); [reflexivity|]. split; [exact Ns|]. left. split; [lia|eauto].
    + rewrite (IH (s ++ r) len); [reflexivity|]. split; [exact Ns|]. right. split; [lia|eauto].
Qed.
Lemma text_upto_length m len s : text_upto m len s -> length s <= len.
Proof. intros [_ [[L _]|[L _]]]; lia. Qed.
Lemma put_start b d : length d <= length b -> put_bytes b 0 d = Ok (d ++ skipn (length d) b).
Proof. intros L. apply (put_bytes_at [] 0 d b); auto. Qed.
Lemma copy_len_lemma m len s : text_upto m (N.to_nat len) s ->
  (forall buf, (INT_MAX < len)%N -> copy_len m len buf = Ok None)
  /\ ((len <= INT_MAX)%N -> copy_len m len None = Ok (Some (s ++ [NUL]))
      /\ (forall b, (N.of_nat (length b) <= len)%N -> copy_len m len (Some b) = Ok None)
      /\ forall b, (len < N.of_nat (length b))%N -> copy_len m len (Some b) = Ok (Some (s ++ [NUL] ++ skipn (length s + 1) b))).
Proof.
  intros T. pose proof (text_upto_length _ _ _ T) as Ls. unfold copy_len. split.
  { intros buf L. destruct (N.ltb_spec INT_MAX len); [reflexivity|lia]. }
  intros L. destruct (N.ltb_spec INT_MAX len); [lia|]. rewrite (upto_text _ _ _ T). cbn [obind]. split; [reflexivity|]. split.
  - intros b Lb. destruct (Nat.eqb_spec (length b) 0); [reflexivity|]. cbn [orb].
    destruct (N.ltb_spec (N.of_nat (length b - 1)) len); [reflexivity|lia].
  - intros b Lb. destruct (Nat.eqb_spec (length b) 0); [lia|]. cbn [orb].
    destruct (N.ltb_spec (N.of_nat (length b - 1)) len); [lia|].
    rewrite put_start by (rewrite app_length; cbn [length]; lia). cbn [obind]. rewrite app_length, <- app_assoc. reflexivity.
Qed.
Lemma copy_substr_lemma str offset len : (offset + len < 2 ^ 64)%N -> (N.of_nat (length str) < 2 ^ 64 - 1)%N ->
  let sub := firstn (N.to_nat len) (skipn (N.to_nat offset) str) in
  (forall mem, (N.of_nat (length str) < offset + len)%N -> copy_substr mem str offset len = Ok None)
  /\ ((offset + len <= N.of_nat (length str))%N -> copy_substr None str offset len = Ok (Some (sub ++ [NUL]))
      /\ (forall b, (N.of_nat (length b) < len + 1)%N -> copy_substr (Some b) str offset len = Ok None)
      /\ forall b, (len + 1 <= N.of_nat (length b))%N -> copy_substr (Some b) str offset len = Ok (Some (sub ++ [NUL] ++ skipn (N.to_nat len + 1) b))).
Proof.
  intros W Ls sub. unfold copy_substr. change (2 ^ 64)%N with 18446744073709551616%N in *.
  assert (E : wrap64 (offset + len) = (offset + len)%N) by (unfold wrap64; change (2 ^ 64)%N with 18446744073709551616%N; apply N.mod_small; lia).
  rewrite E. split.
  { intros mem L. destruct (N.ltb_spec (N.of_nat (length str)) (offset + len)%N); [reflexivity|lia]. }
  intros L. destruct (N.ltb_spec (N.of_nat (length str)) (offset + len)%N); [lia|].
  assert (LS : length sub = N.to_nat len) by (unfold sub; rewrite firstn_length, skipn_length; lia). split.
  { destruct (N.ltb_spec (N.of_nat (length str)) offset); [lia|]. rewrite N.min_l by lia. reflexivity. }
  assert (E1 : wrap64 (len + 1) = (len + 1)%N) by (unfold wrap64; change (2 ^ 64)%N with 18446744073709551616%N; apply N.mod_small; lia).
  rewrite E1. split.
  - intros b Lb. destruct (N.ltb_spec (N.of_nat (length b)) (len + 1)%N); [reflexivity|lia].
  - intros b Lb. destruct (N.ltb_spec (N.of_nat (length b)) (len + 1)%N); [lia|].
    unfold get_bytes. rewrite app_length. cbn [length].
    destruct (N.leb_spec (offset + len) (N.of_nat (length str + 1))); [|lia]. cbn [obind].
    assert (ES : firstn (N.to_nat len) (skipn (N.to_nat offset) (str ++ [NUL])) = sub).
    { unfold sub. rewrite skipn_app, firstn_app, skipn_length.
      replace (N.to_nat len - (length str - N.to_nat offset)) with 0 by lia. cbn [firstn]. apply app_nil_r. }
    rewrite ES, put_start by (rewrite app_length; cbn [length]; lia). cbn [obind]. rewrite app_length, LS, <- app_assoc. reflexivity.
Qed.
Lemma put_next a b d : length d <= length b -> put_bytes (a ++ b) (length a) d = Ok (a ++ d ++ skipn (length d) b).
Proof. intros L. apply put_bytes_at; auto. Qed.
Lemma comb_to_str_lemma p s x mem : let t := or_empty p ++ or_empty s ++ or_empty x in
  comb_to_str mem p s x = match mem with
    | None => Ok (Some (t ++ [NUL]))
    | Some b => if length b <=? length t then Ok None else Ok (Some (t ++ [NUL] ++ skipn (length t + 1) b)) end.
Proof.
  cbn zeta. unfold comb_to_str. set (p' := or_empty p). set (s' := or_empty s). set (x' := or_empty x).
  set (n := length p' + length s' + length x' + 1).
  assert (Lt : length (p' ++ s' ++ x') + 1 = n) by (unfold n; rewrite !app_length; lia).
  assert (G : forall b, n <= length b ->
    (let! b := put_bytes b 0 p' in let! b := put_bytes b (length p') s' in let! b := put_bytes b (length p' + length s') x' in
     let! b := put_bytes b (length p' + length s' + length x') [NUL] in Ok (Some b)) = Ok (Some ((p' ++ s' ++ x') ++ [NUL] ++ skipn n b))).
  { intros b Lb. unfold n in Lb. rewrite put_start by lia. cbn [obind].
    rewrite put_next by (rewrite skipn_length; lia). cbn [obind]. rewrite skipn_add.
    rewrite (app_assoc p'). rewrite <- app_length. rewrite put_next by (rewrite app_length, skipn_length; lia). cbn [obind].
    rewrite skipn_add. rewrite (app_assoc (p' ++ s')). rewrite <- app_length. rewrite put_next by (rewrite !app_length, skipn_length; cbn; lia).
    cbn [obind]. rewrite skipn_add. rewrite <- !app_assoc. cbn [length]. do 7 f_equal. unfold n. rewrite !app_length. lia. }
  destruct mem as [b|].
  - destruct (Nat.ltb_spec (length b) n), (Nat.leb_spec (length b) (length (p' ++ s' ++ x'))); try lia; [reflexivity|].
    rewrite Lt. apply G. lia.
  - rewrite G by (unfold fresh; rewrite repeat_length; lia). rewrite skipn_all2 by (unfold fresh; rewrite repeat_length; lia).
    rewrite app_nil_r. reflexivity.
Qed.

(* Names *)
Lemma action_round_lemma a : a <= 8 -> exists s, action_to_str a = Ok s /\ str_to_action s = a.
Proof. intros L. do 9 (destruct a as [|a]; [eexists; split; reflexivity|]). lia. Qed.
Lemma devtype_round_lemma a : a <= 2 -> exists s, devtype_to_str a = Ok s /\ str_to_devtype s = a.
Proof. intros L. do 3 (destruct a as [|a]; [eexists; split; reflexivity|]). lia. Qed.
Lemma caseeq_same s n : strcaseeq s n = true <-> same true s n.
Proof. unfold strcaseeq. cbn [same]. destruct (list_eq_dec _ _ _); split; congruence. Qed.
Lemma action_name_lemma s a : 0 < a -> (str_to_action s = a <-> exists n, nth_error udev_action_str a = Some n /\ same true s n).
Proof.
  intros P. split.
  - unfold str_to_action.
    repeat match goal with |- context [strcaseeq s ?n] => destruct (strcaseeq s n) eqn:?E end;
    intros <-; try (eexists; split; [reflexivity|apply caseeq_same; assumption]). unfold UDEV_ACTION_UNKNOWN in P. lia.
  - intros (n & N & S). unfold same in S.
    assert (a <= 8). { assert (nth_error udev_action_str a <> None) by congruence. apply nth_error_Some in H. cbn in H. lia. }
    unfold str_to_action, strcaseeq. rewrite S. clear S s.
    do 9 (destruct a as [|a]; [try lia; injection N as <-; reflexivity|]). lia.
Qed.
Lemma action_unknown_lemma s : str_to_action s = 0 <-> forall a n, 0 < a -> nth_error udev_action_str a = Some n -> ~ same true s n.
Proof.
  split.
  - intros E a n P N S. assert (str_to_action s = a) by (apply action_name_lemma; eauto). lia.
  - intros H. destruct (Nat.eq_dec (str_to_action s) 0) as [E|E]; [exact E|]. exfalso.
    destruct (proj1 (action_name_lemma s (str_to_action s) ltac:(lia)) eq_refl) as (n & N & S). refine (H _ n _ N S). lia.
Qed.
Lemma devtype_name_lemma s a : 0 < a -> (str_to_devtype s = a <-> exists n, nth_error udev_devtype_str a = Some n /\ same true s n).
Proof.
  intros P. split.
  - unfold str_to_devtype.
    repeat match goal with |- context [strcaseeq s ?n] => destruct (strcaseeq s n) eqn:?E end;
    intros <-; try (eexists; split; [reflexivity|apply caseeq_same; assumption]). unfold UDEV_DEVTYPE_UNKNOWN in P. lia.
  - intros (n & N & S). unfold same in S.
    assert (a <= 2). { assert (nth_error udev_devtype_str a <> None) by congruence. apply nth_error_Some in H. cbn in H. lia. }
    unfold str_to_devtype, strcaseeq. rewrite S. clear S s.
    do 3 (destruct a as [|a]; [try lia; injection N as <-; reflexivity|]). lia.
Qed.
Lemma devtype_unknown_lemma s : str_to_devtype s = 0 <-> forall a n, 0 < a -> nth_error udev_devtype_str a = Some n -> ~ same true s n.
Proof.
  split.
  - intros E a n P N S. assert (str_to_devtype s = a) by (apply devtype_name_lemma; eauto). lia.
  - intros H. destruct (Nat.eq_dec (str_to_devtype s) 0) as [E|E]; [exact E|]. exfalso.
    destruct (proj1 (devtype_name_lemma s (str_to_devtype s) ltac:(lia)) eq_refl) as (n & N & S). refine (H _ n _ N S). lia.
Qed.

(* Printing a number *)
Lemma uint_digits d c : In c (uint_chars d) -> digit c.
Proof. induction d; cbn [uint_chars]; intros H; [contradiction|..]; (destruct H as [<-|H]; [unfold digit; cbn; lia|auto]). Qed.
Lemma acc_value d : forall p, N.pos (Pos.of_uint_acc d p) = fold_left (fun a c => (10 * a + (N_of_ascii c - 48))%N) (uint_chars d) (N.pos p).
Proof.
  induction d; intros p; cbn [Pos.of_uint_acc uint_chars fold_left]; [reflexivity|..]; rewrite IHd; f_equal;
  match goal with |- context [N_of_ascii ?c] => let x := eval vm_compute in (N_of_ascii c) in change (N_of_ascii c) with x end; lia.
Qed.
Lemma uint_value d : dec_value (uint_chars d) = Pos.of_uint d.
Proof.
  unfold dec_value. induction d; cbn [uint_chars fold_left]; [reflexivity|exact IHd|..];
  match goal with |- fold_left _ _ (10 * 0 + (N_of_ascii ?c - 48))%N = _ => let x := eval vm_compute in (10 * 0 + (N_of_ascii c - 48))%N in change (10 * 0 + (N_of_ascii c - 48))%N with x end;
  rewrite <- acc_value; reflexivity.
Qed.
Lemma print_decimal z : decimal z (print_d z).
Proof.
  unfold decimal, print_d. pose proof (DecimalZ.of_to z) as R.
  assert (NN : forall p, uint_chars (Pos.to_uint p) <> []).
  { intros p E. pose proof (uint_value (Pos.to_uint p)) as V. rewrite E in V. cbn in V.
    pose proof (DecimalPos.Unsigned.of_to p) as O. rewrite <- V in O. discriminate O. }
  destruct z as [|p|p]; cbn [Z.to_int Z.ltb Z.compare] in *.
  - split; [discriminate|]. split; [intros c [<-|[]]; unfold digit; cbn; lia|reflexivity].
  - split; [apply NN|]. split; [intros c; apply uint_digits|]. rewrite uint_value, DecimalPos.Unsigned.of_to. reflexivity.
  - eexists. split; [reflexivity|]. split; [apply NN|]. split; [intros c; apply uint_digits|]. rewrite uint_value, DecimalPos.Unsigned.of_to. reflexivity.
Qed.
Lemma pid_to_str_lemma pid b : exists t, decimal pid t
  /\ (length t < length b -> pid_to_str pid b = Ok (0%Z, t ++ [NUL] ++ skipn (length t + 1) b))
  /\ (length b <= length t -> exists b', pid_to_str pid b = Ok ((-1)%Z, b') /\ length b' = length b /\ (b <> [] -> exists u, text b' u)).
Proof.
  exists (print_d pid). split; [apply print_decimal|]. unfold pid_to_str, snprintf. set (t := print_d pid).
  assert (TN : ~ In NUL t).
  { unfold t, print_d. intros H. assert (forall d, ~ In NUL (uint_chars d)) by (intros d X; apply uint_digits in X; unfold digit in X; cbn in X; lia).
    destruct (Z.to_int pid) as [d|d]; [exact (H0 d H)|]. destruct H as [H|H]; [discriminate H|exact (H0 d H)]. }
  split; intros L.
  - destruct (Nat.eqb_spec (length b) 0); [lia|]. rewrite firstn_all2 by lia.
    rewrite put_start by (rewrite app_length; cbn [length]; lia). cbn [obind].
    destruct (Nat.leb_spec (length b) (length t)); [lia|]. rewrite app_length, <- app_assoc. reflexivity.
  - destruct (Nat.leb_spec (length b) (length t)); [|lia]. destruct (Nat.eqb_spec (length b) 0) as [E|E].
    + exists b. cbn [obind]. split; [reflexivity|]. split; [reflexivity|]. destruct b; [congruence|discriminate E].
    + rewrite put_start; cycle 1.
      { rewrite app_length, firstn_length. cbn [length]. lia. }
      cbn [obind]. eexists. split; [reflexivity|]. split.
      * repeat rewrite ?app_length, ?skipn_length, ?firstn_length. cbn [length]. lia.
      * intros _. exists (firstn (length b - 1) t). split; [intros X; apply TN; rewrite <- (firstn_skipn (length b - 1) t); apply in_or_app; auto|].
        rewrite <- app_assoc. cbn [app]. eauto.
Qed.

Lemma kv_codes_lemma s : ~ In NUL s ->
  (spaces s -> get_kv (s ++ [NUL]) = Ok ((- ENODATA)%Z, s ++ [NUL], None))
  /\ (valueless s -> get_kv (s ++ [NUL]) = UB)
  /\ (~ spaces s -> ~ valueless s -> (forall k v, ~ pair_text s k v) ->
      exists b, get_kv (s ++ [NUL]) = Ok ((- EINVAL)%Z, b, None) /\ length b = length s + 1).
Proof.
  intros N. split; [apply kv_blank|]. split; [apply kv_valueless; exact N|]. intros A1 A2 A3.
  destruct (kv_cases s N) as [H|[H|[(k & v & H)|H]]]; [contradiction|contradiction|elim (A3 k v H)|exact H].
Qed.
Lemma plain_word_lemma d q w : w <> [] -> (forall c, In c w -> ~ In c d /\ ~ In c q) -> words_of (Some d) (Some q) (Some w) = Some [w].
Proof.
  intros W H. cbn [words_of or_empty]. rewrite <- (app_nil_r w) at 1. rewrite words_plain; [reflexivity|exact W|].
  apply forallb_forall. intros c Hc. apply negb_true_iff, inset_not. rewrite in_app_iff. destruct (H c Hc). tauto.
Qed.
Lemma udev_action_unknown_thm : forall s, str_to_action s = UDEV_ACTION_UNKNOWN <->
  forall n, In n [B "add"; B "change"; B "remove"; B "move"; B "online"; B "offline"; B "bind"; B "unbind"] -> ~ same true s n.
Proof.
  intros s. rewrite action_unknown_lemma. split.
  - intros H n I. cbn [In] in I.
    repeat (destruct I as [<-|I]; [match goal with |- ~ same true s ?x =>
      first [exact (H 1 x ltac:(lia) eq_refl) | exact (H 2 x ltac:(lia) eq_refl) | exact (H 3 x ltac:(lia) eq_refl) | exact (H 4 x ltac:(lia) eq_refl)
            | exact (H 5 x ltac:(lia) eq_refl) | exact (H 6 x ltac:(lia) eq_refl) | exact (H 7 x ltac:(lia) eq_refl) | exact (H 8 x ltac:(lia) eq_refl)] end|]).
    contradiction.
  - intros H a n P N. apply H. destruct a as [|a]; [lia|]. exact (nth_error_In (tl udev_action_str) a N).
Qed.
Lemma udev_devtype_unknown_thm : forall s, str_to_devtype s = UDEV_DEVTYPE_UNKNOWN <->
  forall n, In n [B "disk"; B "partition"] -> ~ same true s n.
Proof.
  intros s. rewrite devtype_unknown_lemma. split.
  - intros H n I. cbn [In] in I. destruct I as [<-|[<-|[]]]; [exact (H 1 _ ltac:(lia) eq_refl)|exact (H 2 _ ltac:(lia) eq_refl)].
  - intros H a n P N. apply H. destruct a as [|a]; [lia|]. exact (nth_error_In (tl udev_devtype_str) a N).
Qed.
