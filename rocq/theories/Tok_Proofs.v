From Verif Require Import Base Tok_Model Tok_Spec Buf_IO.
Local Open Scope nat_scope.

Section lex.
Variables d q : bytes.
Notation words := (words d q).

Fixpoint join (cur : option bytes) (l : list (bytes * bool)) : list bytes :=
  match l with
  | [] => match cur with Some w => [w] | None => [] end
  | (t, true) :: l => join (Some (or_empty cur ++ t)) l
  | (t, false) :: l => match cur with Some w => w :: join (Some t) l | None => join (Some t) l end
  end.

Lemma span_split f s : exists u, firstn (span f s) s = u /\ s = u ++ skipn (span f s) s /\ forallb f u = true
  /\ match skipn (span f s) s with [] => True | c :: _ => f c = false end.
Proof.
  induction s as [|c s IH]; cbn [span firstn skipn].
  - exists []; auto.
  - destruct (f c) eqn:E.
    + destruct IH as (u & A & B & C & D). exists (c :: u). cbn [firstn skipn forallb].
      rewrite A, E, C. repeat split; auto. cbn. f_equal. exact B.
    + exists []. cbn [firstn skipn]. auto.
Qed.

Lemma words_delims u s : forallb (inset d) u = true -> words None None (u ++ s) = words None None s.
Proof.
  induction u as [|c u IH]; [reflexivity|]. cbn [forallb app]. intros H. apply andb_true_iff in H as [H1 H2].
  cbn [Tok_Spec.words]. unfold inset in H1. rewrite H1, (IH H2). destruct (words None None s); reflexivity.
Qed.
Lemma words_end w u s : u <> [] -> forallb (inset d) u = true -> words (Some w) None (u ++ s) = option_map (cons w) (words None None s).
Proof.
  destruct u as [|c u]; [contradiction|]. intros _. cbn [forallb app]. intros H. apply andb_true_iff in H as [H1 H2].
  cbn [Tok_Spec.words]. unfold inset in H1. rewrite H1, (words_delims u s H2). reflexivity.
Qed.
Lemma words_plain u s cur : u <> [] -> forallb (fun x => negb (inset (q ++ d) x)) u = true ->
  words cur None (u ++ s) = words (Some (or_empty cur ++ u)) None s.
Proof.
  revert cur. induction u as [|c u IH]; [contradiction|]. intros cur _ H. cbn [forallb app] in *.
  apply andb_true_iff in H as [H1 H2]. unfold inset in H1. rewrite existsb_app, negb_orb in H1.
  apply andb_true_iff in H1 as [Hq Hd]. apply negb_true_iff in Hq, Hd.
  cbn [Tok_Spec.words]. rewrite Hd, Hq. destruct u as [|c' u].
  - reflexivity.
  - rewrite IH by (discriminate || exact H2). cbn [or_empty]. rewrite <- app_assoc. reflexivity.
Qed.
Lemma words_quoted e t w : words (Some w) (Some e) t =
  match index e t with None => None | Some n => words (Some (w ++ firstn n t)) None (skipn (S n) t) end.
Proof.
  revert w. induction t as [|c t IH]; intros w; [reflexivity|]. cbn [Tok_Spec.words index].
  destruct (Ascii.eqb c e).
  - cbn [firstn skipn]. rewrite app_nil_r. reflexivity.
  - cbn [or_empty]. rewrite IH. destruct (index e t) as [n|]; [|reflexivity].
    cbn [option_map firstn]. rewrite <- app_assoc. reflexivity.
Qed.

Definition ready (mb : bool) (cur : option bytes) (s : bytes) : Prop :=
  if mb then cur <> None /\ match s with [] => False | c :: _ => inset d c = false end
  else cur = None \/ match s with [] => True | c :: _ => inset d c = true end.

Lemma index_lt e t n : index e t = Some n -> n < length t.
Proof.
  revert n. induction t as [|c t IH]; intros n; cbn [index]; [discriminate|].
  destruct (Ascii.eqb c e); [intros [= <-]; cbn; lia|]. destruct (index e t); [|discriminate].
  intros [= <-]. specialize (IH _ eq_refl). cbn. lia.
Qed.

Lemma iterate_words fuel : forall mb cur s, length s < fuel -> ready mb cur s ->
  words cur None s = option_map (join cur) (iterate fuel d q mb s)
  /\ match iterate fuel d q mb s with Some ((_, b) :: _) => b = mb | _ => True end.
Proof.
  induction fuel as [|fuel IH]; intros mb cur s Hf R; [lia|]. cbn [iterate].
  destruct s as [|c0 s0].
  { destruct mb; [destruct R; contradiction|]. split; [reflexivity|exact I]. }
  set (s := c0 :: s0) in *.
  destruct (span_split (inset d) s) as (u & A & B & C & D).
  assert (E : exists cur', cur' = (if mb then cur else None) /\
    words cur None s = option_map (fun ws => if mb then ws else match cur with Some w => w :: ws | None => ws end)
      (words cur' None (skipn (span (inset d) s) s))).
  { exists (if mb then cur else None). split; [reflexivity|]. destruct mb.
    - destruct R as [_ R]. unfold s in R |- *. cbn [span] in *. rewrite R. cbn [skipn].
      destruct (words cur None (c0 :: s0)); reflexivity.
    - destruct cur as [w|].
      + destruct R as [R|R]; [discriminate|]. rewrite B at 1. apply words_end; [|exact C].
        intros ->. unfold s in A, R. cbn [span] in A. rewrite R in A. discriminate A.
      + rewrite B at 1. rewrite words_delims by exact C. destruct (words None None _); reflexivity. }
  destruct E as (cur' & -> & E). rewrite E. clear E.
  set (s' := skipn (span (inset d) s) s) in *. assert (L : length s' <= length s) by (unfold s'; rewrite skipn_length; lia).
  destruct s' as [|c t] eqn:Es.
  { destruct mb.
    - destruct R as [_ R]. unfold s', s in Es. unfold s in R. cbn [span] in Es. rewrite R in Es. discriminate.
    - split; [cbn [Tok_Spec.words option_map join]; destruct cur; reflexivity|exact I]. }
  clear B A Es.
  assert (K : forall tok r cu, length r < fuel -> cu = Some (or_empty (if mb then cur else None) ++ tok) ->
     option_map (fun ws => if mb then ws else match cur with Some w => w :: ws | None => ws end) (words cu None r)
     = option_map (join cur) (option_map (cons (tok, mb)) (iterate fuel d q match r with [] => false | x :: _ => negb (inset d x) end r))).
  { intros tok r cu Lr ->. destruct (IH (match r with [] => false | x :: _ => negb (inset d x) end)
      (Some (or_empty (if mb then cur else None) ++ tok)) r Lr) as [W _].
    { destruct r as [|x r]; [right; exact I|]. destruct (inset d x) eqn:Ex; cbn [negb ready]; rewrite Ex; auto.
      split; [discriminate|reflexivity]. }
    rewrite W. destruct (iterate _ _ _ _ _) as [l|]; [|reflexivity]. cbn [option_map]. f_equal.
    destruct mb; cbn [join]; [reflexivity|]. destruct cur; reflexivity. }
  destruct (inset q c) eqn:Q.
  - assert (E : words (if mb then cur else None) None (c :: t)
       = words (Some (or_empty (if mb then cur else None))) (Some c) t).
    { cbn [Tok_Spec.words]. unfold inset in D, Q. rewrite D, Q. reflexivity. }
    rewrite E, words_quoted. destruct (index c t) as [n|] eqn:N; [|split; [reflexivity|exact I]].
    pose proof (index_lt _ _ _ N) as Ln. cbn [length] in L. split.
    + apply K; [rewrite skipn_length; lia|reflexivity].
    + destruct (iterate fuel d q _ (skipn (S n) t)); cbn [option_map]; auto.
  - destruct (span_split (fun x => negb (inset (q ++ d) x)) (c :: t)) as (v & A & B & G & _).
    set (r := skipn (span (fun x => negb (inset (q ++ d) x)) (c :: t)) (c :: t)) in *.
    assert (V : v <> []).
    { rewrite <- A. cbn [span]. unfold inset at 1. rewrite existsb_app. unfold inset in Q, D. rewrite Q, D. cbn. discriminate. }
    rewrite B at 1. rewrite words_plain by assumption. rewrite A. split.
    + apply K; [|reflexivity]. apply (f_equal (@List.length ascii)) in B. rewrite app_length in B. destruct v; [contradiction|].
      cbn [List.length] in *. lia.
    + destruct (iterate fuel d q _ r); cbn [option_map]; auto.
Qed.
End lex.

(* The calls of one string: the first does not merge *)
Definition starts (l : list (bytes * bool)) : Prop := match l with (_, b) :: _ => b = false | [] => True end.
Lemma iterate_tokens_words s d q : words_of d q s = option_map (join None) (iterate_tokens s d q)
  /\ match iterate_tokens s d q with Some l => starts l | None => True end.
Proof.
  destruct s as [s|]; [|split; [reflexivity|exact I]]. cbn [words_of iterate_tokens].
  destruct (iterate_words (or_empty d) (or_empty q) (S (length s)) false None s) as [A B]; [lia|left; reflexivity|].
  split; [exact A|]. destruct (iterate _ _ _ _ _) as [[|[t b] l]|]; auto.
Qed.

(* Copying *)
Fixpoint offs (o : nat) (ws : list bytes) : list slot :=
  match ws with [] => [] | w :: t => At o :: offs (o + S (length w)) t end.
Lemma offs_app o a b : offs o (a ++ b) = offs o a ++ offs (o + length (stored a)) b.
Proof.
  revert o. induction a as [|w a IH]; intros o; cbn [app offs stored flat_map]; [rewrite Nat.add_0_r; reflexivity|].
  rewrite IH. do 3 f_equal. fold (stored a). rewrite !app_length. cbn. lia.
Qed.
Lemma offs_length o a : length (offs o a) = length a.
Proof. revert o. induction a; intros; cbn; auto. Qed.
Lemma stored_app a b : stored (a ++ b) = stored a ++ stored b.
Proof. apply flat_map_app. Qed.
Lemma stored_one w : stored [w] = w ++ [NUL].
Proof. cbn. apply app_nil_r. Qed.

Definition state (n : nat) (a0 : bytes) (ws : list bytes) : copier :=
  {| strv := offs 0 ws ++ repeat Uninit (n - length ws); area := stored ws ++ skipn (length (stored ws)) a0;
     ci := length ws; cs := length (stored ws) |}.

Lemma put_bytes_at a o x r : length a = o -> length x <= length r -> put_bytes (a ++ r) o x = Ok (a ++ x ++ skipn (length x) r).
Proof.
  intros <- L. unfold put_bytes. rewrite app_length. destruct (Nat.leb_spec (length a + length x) (length a + length r)) as [H|H]; [|lia].
  rewrite firstn_app, Nat.sub_diag, firstn_all. cbn [firstn]. rewrite app_nil_r.
  rewrite skipn_app. rewrite (skipn_all2 a) by lia. cbn [app]. replace (length a + length x - length a) with (length x) by lia. reflexivity.
Qed.

Lemma copy_new n a0 ws t : S (length ws) <= n -> length (stored ws) + S (length t) <= length a0 ->
  copy_token (state n a0 ws) (t, false) = Ok (state n a0 (ws ++ [t])).
Proof.
  intros H1 H2. unfold copy_token, state. cbn [ci strv cs area andb].
  unfold put_slot. rewrite app_length, offs_length, repeat_length.
  destruct (Nat.ltb_spec (length ws) (length ws + (n - length ws))) as [H|H]; [|lia]. cbn [obind].
  rewrite put_bytes_at; [|reflexivity|rewrite app_length, skipn_length; cbn [length]; lia]. cbn [obind].
  f_equal. rewrite offs_app, stored_app, stored_one, !app_length. cbn [length offs]. f_equal.
  - assert (E : n - length ws = S (n - (length ws + 1))) by lia. rewrite E. cbn [repeat].
    assert (forall A (l : list A) x r y, list_set (l ++ x :: r) (length l) y = l ++ y :: r) as LS.
    { intros A l x r y. induction l as [|? l IH]; [reflexivity|]. cbn [app length list_set]. rewrite IH. reflexivity. }
    rewrite <- (offs_length 0 ws) at 2. rewrite LS, <- app_assoc. reflexivity.
  - rewrite <- !app_assoc. do 3 f_equal. rewrite skipn_add. reflexivity.
  - lia.
Qed.
Lemma copy_merge n a0 ws w t : length (stored (ws ++ [w])) + length t <= length a0 ->
  copy_token (state n a0 (ws ++ [w])) (t, true) = Ok (state n a0 (ws ++ [w ++ t])).
Proof.
  intros H. unfold copy_token, state. cbn [ci strv cs area].
  rewrite stored_app, stored_one in *. rewrite !app_length in *. cbn [length] in *.
  destruct (Nat.eqb_spec (length ws + 1) 0) as [E|_]; [lia|]. cbn [negb andb].
  destruct (Nat.eqb_spec (length (stored ws) + (length w + 1)) 0) as [E|_]; [lia|]. cbn [obind].
  assert (E : (stored ws ++ w ++ [NUL]) ++ skipn (length (stored ws) + (length w + 1)) a0
    = (stored ws ++ w) ++ NUL :: skipn (length (stored ws) + (length w + 1)) a0) by (rewrite <- !app_assoc; reflexivity).
  rewrite E. rewrite put_bytes_at; cycle 1.
  { rewrite app_length. lia. }
  { rewrite app_length. cbn [length]. rewrite skipn_length. lia. }
  cbn [obind]. f_equal. rewrite !offs_app, !stored_app, !stored_one, !app_length. cbn [length offs]. f_equal.
  - rewrite <- !app_assoc. do 3 f_equal. replace (length t + 1) with (S (length t)) by lia. cbn [skipn].
    rewrite skipn_add. do 2 f_equal. lia.
  - lia.
  - lia.
Qed.

Definition cnt (c : nat * nat) (l : list (bytes * bool)) := fold_left count_token l c.

Lemma copy_calls n a0 l : forall ws cur,
  (let c := cnt (length ws + 1, length (stored (ws ++ [cur]))) l in fst c <= n /\ snd c + (fst c - (length ws + 1)) <= length a0) ->
  copy_tokens (state n a0 (ws ++ [cur])) l = Ok (state n a0 (ws ++ join (Some cur) l))
  /\ fst (cnt (length ws + 1, length (stored (ws ++ [cur]))) l) = length (ws ++ join (Some cur) l)
  /\ snd (cnt (length ws + 1, length (stored (ws ++ [cur]))) l) + (fst (cnt (length ws + 1, length (stored (ws ++ [cur]))) l) - (length ws + 1)) = length (stored (ws ++ join (Some cur) l)).
Proof.
  induction l as [|[t mb] l IH]; intros ws cur H; cbn zeta in *; cbn [copy_tokens join].
  { cbn [cnt fold_left fst snd] in *. rewrite app_length. cbn [length]. split; [reflexivity|]. split; lia. }
  assert (MONO : forall l a b, a <= fst (cnt (a, b) l) /\ b <= snd (cnt (a, b) l)).
  { clear. induction l as [|[t mb] l IH]; intros a b; cbn; [lia|]. destruct mb; unfold cnt in IH.
    - destruct (IH a (b + length t)). lia.
    - destruct (IH (S a) (b + length t)). lia. }
  assert (SH : forall l a b k, cnt (a, b + k) l = (fst (cnt (a, b) l), snd (cnt (a, b) l) + k)).
  { clear. induction l as [|[t mb] l IH]; intros a b k; cbn; [reflexivity|]. unfold cnt in IH.
    replace (b + k + length t) with (b + length t + k) by lia. apply IH. }
  cbn [cnt fold_left count_token fst snd] in *. fold (cnt (length ws + 1, length (stored (ws ++ [cur])) + length t) l) in *.
  destruct mb.
  - fold (cnt (length ws + 1, length (stored (ws ++ [cur])) + length t) l) in *.
    pose proof (MONO l (length ws + 1) (length (stored (ws ++ [cur])) + length t)) as M.
    rewrite copy_merge by lia. cbn [obind or_empty].
    assert (E : length (stored (ws ++ [cur])) + length t = length (stored (ws ++ [cur ++ t]))).
    { rewrite !stored_app, !stored_one, !app_length. cbn [length]. lia. }
    rewrite E in *. apply IH. exact H.
  - fold (cnt (S (length ws + 1), length (stored (ws ++ [cur])) + length t) l) in *.
    pose proof (MONO l (S (length ws + 1)) (length (stored (ws ++ [cur])) + length t)) as M.
    rewrite copy_new by (rewrite ?app_length; cbn [length]; lia). cbn [obind].
    assert (E : length (stored ((ws ++ [cur]) ++ [t])) = length (stored (ws ++ [cur])) + length t + 1).
    { rewrite (stored_app (ws ++ [cur])), stored_one, !app_length. cbn [length]. lia. }
    specialize (IH (ws ++ [cur]) t). cbn zeta in IH. rewrite E in IH. rewrite SH in IH.
    rewrite app_length in IH. cbn [length fst snd] in IH. replace (length ws + 1 + 1) with (S (length ws + 1)) in IH by lia.
    rewrite <- app_assoc in IH. cbn [app] in IH.
    replace (ws ++ cur :: join (Some t) l) with ((ws ++ [cur]) ++ join (Some t) l) by (rewrite <- app_assoc; reflexivity).
    rewrite <- app_assoc. cbn [app]. destruct IH as (I1 & I2 & I3); [lia|].
    split; [rewrite <- app_assoc in I1 |- *; exact I1|]. split; [exact I2|]. rewrite <- I3. lia.
Qed.

Lemma cnt_join l : forall ws cur, fst (cnt (length ws + 1, length (stored (ws ++ [cur]))) l) = length (ws ++ join (Some cur) l)
  /\ snd (cnt (length ws + 1, length (stored (ws ++ [cur]))) l) + (fst (cnt (length ws + 1, length (stored (ws ++ [cur]))) l) - (length ws + 1)) = length (stored (ws ++ join (Some cur) l)).
Proof.
  intros ws cur. set (c := cnt _ l).
  destruct (copy_calls (fst c) (repeat NUL (snd c + fst c)) l ws cur) as (_ & A & B); [|split; assumption].
  cbn zeta. fold c. rewrite repeat_length. lia.
Qed.

Lemma cnt_shift l : forall a b k j, cnt (a + j, b + k) l = (fst (cnt (a, b) l) + j, snd (cnt (a, b) l) + k).
Proof.
  induction l as [|[t mb] l IH]; intros a b k j; cbn; [reflexivity|]. unfold cnt in IH.
  replace (b + k + length t) with (b + length t + k) by lia. destruct mb; [apply IH|]. apply (IH (S a)).
Qed.

(* The same for the calls of a whole string, from any state *)
Lemma copy_string n a0 l ws : starts l -> length ws + length (join None l) <= n ->
  length (stored (ws ++ join None l)) <= length a0 ->
  copy_tokens (state n a0 ws) l = Ok (state n a0 (ws ++ join None l)).
Proof.
  intros S H1 H2. destruct l as [|[t b] l]; [cbn [copy_tokens join]; rewrite app_nil_r; reflexivity|].
  cbn [starts] in S. subst b. cbn [copy_tokens join] in *.
  pose proof (cnt_join l ws t) as [C1 C2].
  assert (J : 1 <= length (join (Some t) l)).
  { clear. revert t. induction l as [|[u mb] l IH]; intros t; cbn [join length]; [lia|]. destruct mb; [apply IH|cbn [length]; lia]. }
  assert (M : length (stored (ws ++ [t])) <= length (stored (ws ++ join (Some t) l))).
  { rewrite <- C2. enough (forall a b, b <= snd (cnt (a, b) l)) as X by (specialize (X (length ws + 1) (length (stored (ws ++ [t])))); lia).
    clear. induction l as [|[u mb] l IH]; intros a b; cbn; [lia|]. unfold cnt in IH. etransitivity; [|apply IH]. lia. }
  rewrite copy_new.
  - cbn [obind]. apply copy_calls. cbn zeta. rewrite C1, <- C1, C2, C1, app_length. lia.
  - lia.
  - rewrite stored_app, stored_one, !app_length in M. cbn [length] in M. lia.
Qed.
Lemma cnt_string l a b : starts l -> cnt (a, b) l = (a + length (join None l), b + (length (stored (join None l)) - length (join None l)))
  /\ length (join None l) <= length (stored (join None l)).
Proof.
  intros S. assert (X : forall ws : list bytes, length ws <= length (stored ws)).
  { induction ws as [|w ws IH]; [apply le_n|]. cbn [stored flat_map length]. fold (stored ws). rewrite !app_length. cbn [length]. lia. }
  split; [|apply X]. destruct l as [|[t mb] l]; [cbn; rewrite !Nat.add_0_r; reflexivity|]. cbn [starts] in S. subst mb.
  cbn [join]. cbn [cnt fold_left count_token fst snd]. fold (cnt (S a, b + length t) l).
  pose proof (cnt_join l [] t) as [C1 C2]. cbn [app length Nat.add] in C1, C2.
  rewrite stored_one, app_length in C1, C2. cbn [length] in C1, C2.
  assert (E1 : cnt (1, length t + 1) l = cnt (1 + 0, length t + 1) l) by reflexivity. rewrite E1, cnt_shift in C1, C2.
  cbn [fst snd] in C1, C2. rewrite Nat.add_0_r in C1, C2.
  assert (E : cnt (S a, b + length t) l = (fst (cnt (1, length t) l) + a, snd (cnt (1, length t) l) + b)).
  { rewrite <- cnt_shift. f_equal. f_equal; lia. }
  rewrite E. f_equal; [lia|]. pose proof (X (join (Some t) l)).
  assert (J : 1 <= length (join (Some t) l)).
  { clear. revert t. induction l as [|[u mb] l IH]; intros t; cbn [join length]; [lia|]. destruct mb; [apply IH|cbn [length]; lia]. }
  lia.
Qed.

Lemma read_offs ws : forall pre rest, (forall w, In w ws -> ~ In NUL w) ->
  read_strv (offs (length pre) ws ++ [Null]) (pre ++ stored ws ++ rest) = Ok ws.
Proof.
  assert (CS : forall w r, ~ In NUL w -> cstr (w ++ NUL :: r) = Ok w).
  { induction w as [|c w IH]; intros r H; cbn [app cstr]; [reflexivity|].
    destruct (Ascii.eqb_spec c NUL) as [E|E]; [elim H; left; exact E|].
    rewrite IH; [reflexivity|]. intro X. apply H. right. exact X. }
  induction ws as [|w ws IH]; intros pre rest H; [reflexivity|].
  cbn [offs app read_strv stored flat_map]. fold (stored ws).
  rewrite skipn_app, Nat.sub_diag. rewrite skipn_all2 by lia. cbn [app skipn]. rewrite <- !app_assoc. cbn [app].
  rewrite CS by (apply H; left; reflexivity). cbn [obind].
  assert (E : pre ++ w ++ NUL :: stored ws ++ rest = (pre ++ w ++ [NUL]) ++ stored ws ++ rest) by (rewrite <- !app_assoc; reflexivity).
  rewrite E. assert (L : length pre + S (length w) = length (pre ++ w ++ [NUL])) by (rewrite !app_length; cbn [length]; lia).
  rewrite L, IH; [reflexivity|]. intros x Hx. apply H. right. exact Hx.
Qed.

Lemma words_nul d q s : forall cur e ws, ~ In NUL s -> (forall w, cur = Some w -> ~ In NUL w) ->
  words d q cur e s = Some ws -> forall w, In w ws -> ~ In NUL w.
Proof.
  induction s as [|c s IH]; intros cur e ws Hs Hc W; cbn [words] in W.
  - destruct e; [discriminate|]. injection W as <-. destruct cur as [w0|]; [|intros w []].
    intros w [<-|[]]. apply Hc. reflexivity.
  - assert (Hs' : ~ In NUL s) by (intro X; apply Hs; right; exact X).
    assert (Hcc : forall w, Some (or_empty cur ++ [c]) = Some w -> ~ In NUL w).
    { intros w [= <-] X. apply in_app_or in X as [X|[X|[]]]; [|apply Hs; left; exact X].
      destruct cur; [exact (Hc _ eq_refl X)|contradiction]. }
    destruct e as [e|].
    + destruct (Ascii.eqb c e); [exact (IH _ _ _ Hs' Hc W)|exact (IH _ _ _ Hs' Hcc W)].
    + destruct (existsb _ d).
      * destruct (words d q None None s) as [l|] eqn:E; [|discriminate]. injection W as <-.
        assert (Hl : forall w, In w l -> ~ In NUL w) by (refine (IH None None l Hs' _ E); discriminate).
        intros w Hw. destruct cur as [x|]; [destruct Hw as [<-|Hw]; [apply Hc; reflexivity|]|]; exact (Hl w Hw).
      * destruct (existsb _ q); [|exact (IH _ _ _ Hs' Hcc W)]. refine (IH (Some (or_empty cur)) (Some c) ws Hs' _ W).
        intros w [= <-] X. destruct cur; [exact (Hc _ eq_refl X)|contradiction].
Qed.
Lemma words_of_nul d q s ws : no_nul s -> words_of d q s = Some ws -> forall w, In w ws -> ~ In NUL w.
Proof.
  destruct s as [s|]; cbn [words_of]; intros H W; [|injection W as <-; intros w []].
  eapply words_nul; [exact H| |exact W]. discriminate.
Qed.

Definition fits (mem : option bytes) (ws : list bytes) : bool :=
  match mem with Some m => needs ws <=? length m | None => true end.

Lemma put_last ws : put_slot (offs 0 ws ++ repeat Uninit (length ws + 1 - length ws)) (length ws) Null = Ok (offs 0 ws ++ [Null]).
Proof.
  replace (length ws + 1 - length ws) with 1 by lia. cbn [repeat]. unfold put_slot. rewrite app_length, offs_length. cbn [length].
  destruct (Nat.ltb_spec (length ws) (length ws + 1)) as [_|]; [|lia]. f_equal.
  rewrite <- (offs_length 0 ws). induction (offs 0 ws) as [|? l IH]; [reflexivity|]. cbn [app length list_set]. rewrite IH. reflexivity.
Qed.

Lemma strv_ok mem p s x d q w1 w2 w3 : words_of d q p = Some w1 -> words_of d q s = Some w2 -> words_of d q x = Some w3 ->
  let ws := w1 ++ w2 ++ w3 in
  comb_to_strv mem p s x d q =
    if fits mem ws then Ok (Some (offs 0 ws ++ [Null], stored ws ++ skipn (needs ws) (or_empty mem))) else Ok None.
Proof.
  intros W1 W2 W3 ws.
  destruct (iterate_tokens_words p d q) as [A1 S1], (iterate_tokens_words s d q) as [A2 S2], (iterate_tokens_words x d q) as [A3 S3].
  rewrite A1 in W1. rewrite A2 in W2. rewrite A3 in W3. unfold comb_to_strv.
  destruct (iterate_tokens p d q) as [l1|]; [|discriminate]. destruct (iterate_tokens s d q) as [l2|]; [|discriminate].
  destruct (iterate_tokens x d q) as [l3|]; [|discriminate]. cbn [option_map] in *.
  apply (f_equal (@or_empty)) in W1 || idtac. injection W1 as W1. injection W2 as W2. injection W3 as W3.
  change (fold_left count_token l3 (fold_left count_token l2 (fold_left count_token l1 (0, 0)))) with (cnt (cnt (cnt (0, 0) l1) l2) l3).
  destruct (cnt_string l1 0 0 S1) as [-> B1].
  match goal with |- context [cnt (cnt (?a, ?b) l2) l3] => destruct (cnt_string l2 a b S2) as [-> B2] end.
  match goal with |- context [cnt (?a, ?b) l3] => destruct (cnt_string l3 a b S3) as [-> B3] end.
  rewrite W1 in *. rewrite W2 in *. rewrite W3 in *.
  assert (T : 0 + length w1 + length w2 + length w3 = length ws) by (unfold ws; rewrite !app_length; lia).
  assert (Cs : 0 + (length (stored w1) - length w1) + (length (stored w2) - length w2) + (length (stored w3) - length w3) + length ws
     = length (stored ws)).
  { unfold ws. rewrite !stored_app, !app_length. lia. }
  rewrite T. unfold full_size. rewrite <- Nat.add_assoc, Cs. unfold header_size.
  assert (N : (length ws + 1) * 8 + length (stored ws) = needs ws) by (unfold needs; lia). rewrite N.
  assert (G : forall m, needs ws <= length m ->
    (let! c := copy_tokens {| strv := repeat Uninit (length ws + 1); area := skipn ((length ws + 1) * 8) m; ci := 0; cs := 0 |} l1 in
     let! c := copy_tokens c l2 in let! c := copy_tokens c l3 in
     let! sl := put_slot (strv c) (length ws) Null in Ok (Some (sl, area c)))
    = Ok (Some (offs 0 ws ++ [Null], stored ws ++ skipn (needs ws) m))).
  { intros m Hm. assert (E0 : {| strv := repeat Uninit (length ws + 1); area := skipn ((length ws + 1) * 8) m; ci := 0; cs := 0 |}
      = state (length ws + 1) (skipn ((length ws + 1) * 8) m) []).
    { unfold state. cbn [offs app length stored flat_map skipn]. rewrite Nat.sub_0_r. reflexivity. }
    assert (La : length (skipn ((length ws + 1) * 8) m) >= length (stored ws)) by (rewrite skipn_length; lia).
    assert (LS : length (stored ws) = length (stored w1) + (length (stored w2) + length (stored w3)))
      by (unfold ws; rewrite !stored_app, !app_length; lia).
    rewrite E0. rewrite copy_string; [|exact S1|rewrite W1; cbn [length]; lia|rewrite W1; cbn [app]; lia]. cbn [obind].
    rewrite W1. cbn [app].
    rewrite copy_string; [|exact S2|rewrite W2; lia|rewrite W2, stored_app, app_length; lia]. cbn [obind]. rewrite W2.
    rewrite copy_string; [|exact S3|rewrite W3, app_length; lia|rewrite W3, !stored_app, !app_length; lia]. cbn [obind]. rewrite W3.
    rewrite <- app_assoc. fold ws. cbn [state strv area]. rewrite put_last. cbn [obind]. rewrite skipn_add.
    do 5 f_equal. lia. }
  destruct mem as [m|]; cbn [fits or_empty].
  - destruct (Nat.ltb_spec (length m) (needs ws)), (Nat.leb_spec (needs ws) (length m)); try lia; [reflexivity|]. apply G. lia.
  - rewrite G; unfold fresh; rewrite ?repeat_length; [|lia]. rewrite skipn_all2 by (rewrite repeat_length; lia).
    rewrite skipn_nil. reflexivity.
Qed.
Lemma strv_none mem p s x d q : words_of d q p = None \/ words_of d q s = None \/ words_of d q x = None ->
  comb_to_strv mem p s x d q = Ok None.
Proof.
  destruct (iterate_tokens_words p d q) as [A1 _], (iterate_tokens_words s d q) as [A2 _], (iterate_tokens_words x d q) as [A3 _].
  rewrite A1, A2, A3. unfold comb_to_strv.
  destruct (iterate_tokens p d q), (iterate_tokens s d q), (iterate_tokens x d q); intros [H|[H|H]]; try discriminate H; reflexivity.
Qed.

Lemma copy_ok mem l : strv_copy mem l =
    if fits mem l then Ok (Some (offs 0 l ++ [Uninit], stored l ++ skipn (needs l) (or_empty mem))) else Ok None.
Proof.
  unfold strv_copy. change (fold_left count_token ?c (0, 0)) with (cnt (0, 0) c).
  set (cl := map (fun t => (t, false)) l).
  assert (S : starts cl) by (destruct l; reflexivity || exact I).
  assert (J : join None cl = l).
  { clear. subst cl. destruct l as [|w l]; [reflexivity|]. cbn [map join]. revert w. induction l as [|v l IH]; intros w; [reflexivity|].
    cbn [map join]. f_equal. apply IH. }
  destruct (cnt_string cl 0 0 S) as [-> B]. rewrite J in *. rewrite !Nat.add_0_l.
  unfold full_size, header_size. assert (N : (length l + 1) * 8 + (length (stored l) - length l) + length l = needs l) by (unfold needs; lia).
  rewrite N.
  assert (G : forall m, needs l <= length m ->
    (let! c := copy_tokens {| strv := repeat Uninit (length l + 1); area := skipn ((length l + 1) * 8) m; ci := 0; cs := 0 |} cl in
     Ok (Some (strv c, area c))) = Ok (Some (offs 0 l ++ [Uninit], stored l ++ skipn (needs l) m))).
  { intros m Hm. assert (E0 : {| strv := repeat Uninit (length l + 1); area := skipn ((length l + 1) * 8) m; ci := 0; cs := 0 |}
      = state (length l + 1) (skipn ((length l + 1) * 8) m) []).
    { unfold state. cbn [offs app length stored flat_map skipn]. rewrite Nat.sub_0_r. reflexivity. }
    rewrite E0, copy_string; [|exact S|rewrite J; cbn [length]; lia|rewrite J, skipn_length; cbn [app]; lia].
    cbn [obind app]. rewrite J. cbn [state strv area]. replace (length l + 1 - length l) with 1 by lia. cbn [repeat].
    rewrite skipn_add. do 5 f_equal. lia. }
  destruct mem as [m|]; cbn [fits or_empty].
  - destruct (Nat.ltb_spec (length m) (needs l)), (Nat.leb_spec (needs l) (length m)); try lia; [reflexivity|]. apply G. lia.
  - rewrite G; unfold fresh; rewrite ?repeat_length; [|lia]. rewrite skipn_all2 by (rewrite repeat_length; lia).
    rewrite skipn_nil. reflexivity.
Qed.

(* As stated in the properties *)
Lemma strv_words_lemma : forall mem prefix str suffix delims quotes w1 w2 w3,
  words_of delims quotes prefix = Some w1 -> words_of delims quotes str = Some w2 -> words_of delims quotes suffix = Some w3 ->
  let ws := w1 ++ w2 ++ w3 in
  (forall m, mem = Some m -> needs ws <= length m) ->
  exists sl area, comb_to_strv mem prefix str suffix delims quotes = Ok (Some (sl, area))
    /\ length sl = S (length ws)
    /\ area = stored ws ++ skipn (needs ws) (or_empty mem)
    /\ (no_nul prefix -> no_nul str -> no_nul suffix -> read_strv sl area = Ok ws).
Proof.
  intros mem p s x d q w1 w2 w3 W1 W2 W3 ws F. pose proof (strv_ok mem p s x d q w1 w2 w3 W1 W2 W3) as H. cbn zeta in H. fold ws in H.
  assert (G : fits mem ws = true). { destruct mem as [m|]; [|reflexivity]. apply Nat.leb_le, F. reflexivity. }
  rewrite G in H. eexists _, _. split; [exact H|]. split; [rewrite app_length, offs_length; cbn; lia|]. split; [reflexivity|].
  intros N1 N2 N3. apply (read_offs ws [] (skipn (needs ws) (or_empty mem))).
  intros w Hw. apply in_app_or in Hw as [Hw|Hw]; [exact (words_of_nul _ _ _ _ N1 W1 w Hw)|].
  apply in_app_or in Hw as [Hw|Hw]; [exact (words_of_nul _ _ _ _ N2 W2 w Hw)|exact (words_of_nul _ _ _ _ N3 W3 w Hw)].
Qed.
Lemma strv_refused_lemma : forall mem prefix str suffix delims quotes,
  comb_to_strv mem prefix str suffix delims quotes = Ok None <->
  words_of delims quotes prefix = None \/ words_of delims quotes str = None \/ words_of delims quotes suffix = None
  \/ exists m w1 w2 w3, mem = Some m /\ words_of delims quotes prefix = Some w1 /\ words_of delims quotes str = Some w2
     /\ words_of delims quotes suffix = Some w3 /\ length m < needs (w1 ++ w2 ++ w3).
Proof.
  intros mem p s x d q.
  destruct (words_of d q p) as [w1|] eqn:W1; [|split; [auto|]; intros _; apply strv_none; auto].
  destruct (words_of d q s) as [w2|] eqn:W2; [|split; [auto|]; intros _; apply strv_none; auto].
  destruct (words_of d q x) as [w3|] eqn:W3; [|split; [auto|]; intros _; apply strv_none; auto].
  pose proof (strv_ok mem p s x d q w1 w2 w3 W1 W2 W3) as H. cbn zeta in H. rewrite H. destruct mem as [m|]; cbn [fits].
  - destruct (Nat.leb_spec (needs (w1 ++ w2 ++ w3)) (length m)) as [L|L]; split; auto; try discriminate.
    + intros [E|[E|[E|(m' & a & b & c & E & Ea & Eb & Ec & E')]]]; try discriminate E.
      injection E as <-. injection Ea as <-. injection Eb as <-. injection Ec as <-. lia.
    + intros _. right. right. right. exists m, w1, w2, w3. auto.
  - split; [discriminate|]. intros [E|[E|[E|(m' & a & b & c & E & _)]]]; discriminate E.
Qed.
Lemma strv_copy_lemma : forall mem l, (forall m, mem = Some m -> needs l <= length m) ->
  exists sl, strv_copy mem l = Ok (Some (sl ++ [Uninit], stored l ++ skipn (needs l) (or_empty mem)))
    /\ length sl = length l
    /\ ((forall w, In w l -> ~ In NUL w) -> read_strv (sl ++ [Null]) (stored l ++ skipn (needs l) (or_empty mem)) = Ok l).
Proof.
  intros mem l F. assert (G : fits mem l = true). { destruct mem as [m|]; [|reflexivity]. apply Nat.leb_le, F. reflexivity. }
  exists (offs 0 l). rewrite copy_ok, G. split; [reflexivity|]. split; [apply offs_length|]. intros N.
  apply (read_offs l [] (skipn (needs l) (or_empty mem)) N).
Qed.
