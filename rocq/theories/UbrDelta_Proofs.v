From Coq Require Import Sorted.
From Verif Require Import Base Kvs_Model Tok_Model Bptree_Model Bptree_Proofs Kvs_All UbrKey_Model UbrKey_Spec UbrKey_Proofs UbrDb_Model UbrPerm_Spec UbrPerm_Proofs UbrDelta_Model UbrDelta_Spec.
Local Open Scope nat_scope.

(* order *)
Lemma scmp_before a : forall b, scmp a b = Lt <-> before a b.
Proof.
  induction a as [|x a IH]; intros [|y b]; cbn [scmp].
  - split; [discriminate|inversion 1].
  - split; [intros _; constructor|reflexivity].
  - split; [discriminate|inversion 1].
  - destruct (N.compare_spec (byteN x) (byteN y)) as [E|L|G].
    + assert (x = y) as <-.
      { unfold byteN in E. rewrite <- (ascii_N_embedding x), <- (ascii_N_embedding y), E. reflexivity. }
      rewrite IH. split; [apply Bf_eq|]. inversion 1; subst; [lia|assumption].
    + split; [intros _; apply Bf_lt, L|reflexivity].
    + split; [discriminate|]. inversion 1; subst; lia.
Qed.
Lemma before_irr a : ~ before a a.
Proof. induction a; inversion 1; subst; [lia|auto]. Qed.
Lemma before_trans a b c : before a b -> before b c -> before a c.
Proof.
  intros H. revert c. induction H; intros c Hc; inversion Hc; subst; first [apply Bf_nil | apply Bf_lt; lia | apply Bf_eq; auto].
Qed.
Lemma scmp_cases a b : match scmp a b with Lt => before a b | Gt => before b a | Eq => a = b end.
Proof.
  destruct (scmp a b) eqn:E.
  - apply scmp_eq, E.
  - apply scmp_before, E.
  - apply scmp_before. rewrite scmp_anti, E. reflexivity.
Qed.
Lemma sorted_inv x l : sorted (x :: l) -> sorted l /\ (forall y, In y l -> before x y).
Proof. intros H. inversion H as [|? ? H1 H2]; subst. split; [exact H1|]. apply Forall_forall, H2. Qed.
Lemma sorted_cons x l : sorted l -> (forall y, In y l -> before x y) -> sorted (x :: l).
Proof. intros H1 H2. constructor; [exact H1|]. apply Forall_forall, H2. Qed.
Lemma sorted_notin x l : sorted (x :: l) -> ~ In x l.
Proof. intros H I. apply sorted_inv in H as (_ & H). exact (before_irr x (H x I)). Qed.

(* the walk as lists *)
Fixpoint mrg (op : kv_op) (old : list bytes) : list bytes -> list bytes * list bytes * list bytes :=
  fix walk (new : list bytes) :=
    match old, new with
    | [], [] => ([], [], [])
    | [], n :: new' => let '(p, m, f) := walk new' in match op with OP_MINUS => (p, m, f) | _ => (n :: p, m, n :: f) end
    | o :: old', [] => let '(p, m, f) := mrg op old' [] in match op with OP_SET => (p, o :: m, f) | _ => (p, m, o :: f) end
    | o :: old', n :: new' =>
      match scmp o n with
      | Lt => let '(p, m, f) := mrg op old' new in match op with OP_SET => (p, o :: m, f) | _ => (p, m, o :: f) end
      | Gt => let '(p, m, f) := walk new' in match op with OP_MINUS => (p, m, f) | _ => (n :: p, m, n :: f) end
      | Eq => let '(p, m, f) := mrg op old' new' in match op with OP_MINUS => (p, n :: m, f) | _ => (p, m, n :: f) end
      end
    end.
Lemma mrg_eq op old new : mrg op old new =
    match old, new with
    | [], [] => ([], [], [])
    | [], n :: new' => let '(p, m, f) := mrg op old new' in match op with OP_MINUS => (p, m, f) | _ => (n :: p, m, n :: f) end
    | o :: old', [] => let '(p, m, f) := mrg op old' [] in match op with OP_SET => (p, o :: m, f) | _ => (p, m, o :: f) end
    | o :: old', n :: new' =>
      match scmp o n with
      | Lt => let '(p, m, f) := mrg op old' new in match op with OP_SET => (p, o :: m, f) | _ => (p, m, o :: f) end
      | Gt => let '(p, m, f) := mrg op old new' in match op with OP_MINUS => (p, m, f) | _ => (n :: p, m, n :: f) end
      | Eq => let '(p, m, f) := mrg op old' new' in match op with OP_MINUS => (p, n :: m, f) | _ => (p, m, n :: f) end
      end
    end.
Proof. destruct old, new; reflexivity. Qed.
Lemma walk_eq op old new s : delta_walk op old new s =
    match old, new with
    | [], [] => DOk s
    | [], n :: new' => let? s := on_new op n s in delta_walk op old new' s
    | o :: old', [] => let? s := on_old op o s in delta_walk op old' [] s
    | o :: old', n :: new' =>
      match scmp o n with
      | Lt => let? s := on_old op o s in delta_walk op old' new s
      | Gt => let? s := on_new op n s in delta_walk op old new' s
      | Eq => let? s := on_both op n s in delta_walk op old' new' s
      end
    end.
Proof. destruct old, new; reflexivity. Qed.

Lemma two_ind (P : list bytes -> list bytes -> Prop) :
  P [] [] -> (forall n new, P [] new -> P [] (n :: new)) -> (forall o old, P old [] -> P (o :: old) []) ->
  (forall o old n new, P old (n :: new) -> P (o :: old) new -> P old new -> P (o :: old) (n :: new)) -> forall old new, P old new.
Proof.
  intros H1 H2 H3 H4. assert (G : forall k old new, length old + length new <= k -> P old new).
  { induction k; intros old new L; destruct old as [|o old], new as [|n new]; cbn [List.length] in L; try lia; auto.
    - apply H2, IHk. cbn [List.length]. lia.
    - apply H3, IHk. cbn [List.length]. lia.
    - apply H4; apply IHk; cbn [List.length]; lia. }
  intros old new. exact (G _ old new (le_n _)).
Qed.

Definition app_buf (b : buf) (l : list bytes) : buf := match b with Some b => Some (Dbuf (room b) (items b ++ l)) | None => None end.
Definition fits (b : buf) (l : list bytes) : Prop := match b with Some b => length (items b) + length l <= room b | None => l = [] end.
Lemma app_buf_nil b : app_buf b [] = b. Proof. destruct b as [[r i]|]; [cbn; rewrite app_nil_r|]; reflexivity. Qed.
Lemma fits_cons b x l : fits b (x :: l) -> exists b', buf_add b x = DOk b' /\ fits b' l /\ app_buf b' l = app_buf b (x :: l).
Proof.
  destruct b as [[r i]|]; cbn [fits items room List.length buf_add]; [|discriminate]. intros H. replace (length i <? r) with true by (symmetry; apply Nat.ltb_lt; lia).
  eexists. split; [reflexivity|]. cbn [fits app_buf items room]. rewrite app_length, <- app_assoc. cbn [List.length app]. split; [lia|reflexivity].
Qed.
Lemma walk_mrg op : forall old new s, let '(p, m, f) := mrg op old new in
  fits (d_plus s) p -> fits (d_minus s) m -> fits (d_final s) f ->
  delta_walk op old new s = DOk (Delta (app_buf (d_plus s) p) (app_buf (d_minus s) m) (app_buf (d_final s) f)).
Proof.
  intros old new. pattern old, new. apply two_ind; clear.
  - intros s. cbn. intros _ _ _. rewrite !app_buf_nil. destruct s; reflexivity.
  - intros n new IH s. rewrite mrg_eq, walk_eq. destruct (mrg op [] new) as ((p, m), f).
    destruct op; cbn [on_new]; intros Fp Fm Ff.
    1,2: destruct (fits_cons _ _ _ Fp) as (b1 & -> & F1 & E1); cbn [dbind]; destruct (fits_cons _ _ _ Ff) as (b3 & -> & F3 & E3); cbn [dbind];
      rewrite IH by assumption; cbn [d_plus d_minus d_final]; rewrite E1, E3; reflexivity.
    cbn [dbind]. apply IH; assumption.
  - intros o old IH s. rewrite mrg_eq, walk_eq. destruct (mrg op old []) as ((p, m), f).
    destruct op; cbn [on_old]; intros Fp Fm Ff.
    1: destruct (fits_cons _ _ _ Fm) as (b1 & -> & F1 & E1). 2,3: destruct (fits_cons _ _ _ Ff) as (b1 & -> & F1 & E1).
    all: cbn [dbind]; rewrite IH by assumption; cbn [d_plus d_minus d_final]; rewrite E1; reflexivity.
  - intros o old n new IH1 IH2 IH3 s. rewrite mrg_eq, walk_eq. destruct (scmp o n).
    + destruct (mrg op old new) as ((p, m), f). destruct op; cbn [on_both]; intros Fp Fm Ff.
      3: destruct (fits_cons _ _ _ Fm) as (b1 & -> & F1 & E1). 1,2: destruct (fits_cons _ _ _ Ff) as (b1 & -> & F1 & E1).
      all: cbn [dbind]; rewrite IH3 by assumption; cbn [d_plus d_minus d_final]; rewrite E1; reflexivity.
    + destruct (mrg op old (n :: new)) as ((p, m), f). destruct op; cbn [on_old]; intros Fp Fm Ff.
      1: destruct (fits_cons _ _ _ Fm) as (b1 & -> & F1 & E1). 2,3: destruct (fits_cons _ _ _ Ff) as (b1 & -> & F1 & E1).
      all: cbn [dbind]; rewrite IH1 by assumption; cbn [d_plus d_minus d_final]; rewrite E1; reflexivity.
    + destruct (mrg op (o :: old) new) as ((p, m), f). destruct op; cbn [on_new]; intros Fp Fm Ff.
      1,2: destruct (fits_cons _ _ _ Fp) as (b1 & -> & F1 & E1); cbn [dbind]; destruct (fits_cons _ _ _ Ff) as (b3 & -> & F3 & E3); cbn [dbind];
        rewrite IH2 by assumption; cbn [d_plus d_minus d_final]; rewrite E1, E3; reflexivity.
      cbn [dbind]. apply IH2; assumption.
Qed.
Lemma mrg_len op : forall old new, let '(p, m, f) := mrg op old new in
  length p <= length new /\ length m <= length old /\ length f <= length old + length new.
Proof.
  intros old new. pattern old, new. apply two_ind; clear.
  - cbn. lia.
  - intros n new. rewrite (mrg_eq op [] (n :: new)). destruct (mrg op [] new) as ((p, m), f). destruct op; cbn [List.length]; lia.
  - intros o old. rewrite (mrg_eq op (o :: old) []). destruct (mrg op old []) as ((p, m), f). destruct op; cbn [List.length]; lia.
  - intros o old n new. rewrite (mrg_eq op (o :: old) (n :: new)). destruct (mrg op old (n :: new)) as ((p1, m1), f1).
    destruct (mrg op (o :: old) new) as ((p2, m2), f2). destruct (mrg op old new) as ((p3, m3), f3). cbn [List.length].
    destruct (scmp o n); destruct op; cbn [List.length]; lia.
Qed.
Definition exact (op : kv_op) (old new p m f : list bytes) : Prop :=
  sorted p /\ sorted m /\ sorted f /\ (forall x, In x f <-> result op old new x)
  /\ (forall x, In x p <-> result op old new x /\ ~ In x old) /\ (forall x, In x m <-> In x old /\ ~ result op old new x).
Lemma bytes_dec (x : bytes) (l : list bytes) : {In x l} + {~ In x l}.
Proof. apply in_dec, list_eq_dec, ascii_dec. Qed.
Lemma exact_sub op old new p m f : exact op old new p m f -> forall x, In x p \/ In x m \/ In x f -> In x old \/ In x new.
Proof.
  intros (_ & _ & _ & Hf & Hp & Hm) x H. rewrite Hf, Hp, Hm in H. destruct op; cbn [result] in H; tauto.
Qed.
Lemma mrg_exact op : forall old new, sorted old -> sorted new -> let '(p, m, f) := mrg op old new in exact op old new p m f.
Proof.
  intros old new. pattern old, new. apply two_ind; clear.
  - intros _ _. cbn. repeat split; try constructor; destruct op; cbn; tauto.
  - intros n new IH So Sn. rewrite mrg_eq. destruct (sorted_inv _ _ Sn) as (Sn' & Ln). specialize (IH So Sn').
    destruct (mrg op [] new) as ((p, m), f). pose proof (exact_sub _ _ _ _ _ _ IH) as Sub. destruct IH as (Hp & Hm & Hf & Ef & Ep & Em).
    destruct op; (split; [|split; [|split; [|split; [|split]]]]); try assumption;
      try (apply sorted_cons; [assumption|intros y Hy; destruct (Sub y); [tauto|contradiction|auto]]);
      intros x; cbn [result In]; cbn [In] in *; try rewrite Ef; try rewrite Ep; try rewrite Em; cbn [result]; tauto.
  - intros o old IH So Sn. rewrite mrg_eq. destruct (sorted_inv _ _ So) as (So' & Lo). specialize (IH So' Sn).
    pose proof (sorted_notin _ _ So) as No.
    destruct (mrg op old []) as ((p, m), f). pose proof (exact_sub _ _ _ _ _ _ IH) as Sub. destruct IH as (Hp & Hm & Hf & Ef & Ep & Em).
    destruct op; (split; [|split; [|split; [|split; [|split]]]]); try assumption;
      try (apply sorted_cons; [assumption|intros y Hy; destruct (Sub y); [tauto|auto|contradiction]]);
      intros x; cbn [In]; try rewrite Ef; try rewrite Ep; try rewrite Em; cbn [result In]; (destruct (list_eq_dec ascii_dec o x) as [<-|Ne]; [|]); tauto.
  - intros o old n new IH1 IH2 IH3 So Sn. rewrite mrg_eq. pose proof (scmp_cases o n) as C.
    destruct (sorted_inv _ _ So) as (So' & Lo). destruct (sorted_inv _ _ Sn) as (Sn' & Ln).
    pose proof (sorted_notin _ _ So) as No. pose proof (sorted_notin _ _ Sn) as Nn. destruct (scmp o n).
    + subst n. specialize (IH3 So' Sn'). destruct (mrg op old new) as ((p, m), f). pose proof (exact_sub _ _ _ _ _ _ IH3) as Sub.
      destruct IH3 as (Hp & Hm & Hf & Ef & Ep & Em).
      destruct op; (split; [|split; [|split; [|split; [|split]]]]); try assumption;
        try (apply sorted_cons; [assumption|intros y Hy; destruct (Sub y); [tauto|auto|auto]]);
        intros x; cbn [In]; try rewrite Ef; try rewrite Ep; try rewrite Em; cbn [result In]; (destruct (list_eq_dec ascii_dec o x) as [<-|Ne]; [|]); tauto.
    + specialize (IH1 So' Sn). destruct (mrg op old (n :: new)) as ((p, m), f). pose proof (exact_sub _ _ _ _ _ _ IH1) as Sub.
      destruct IH1 as (Hp & Hm & Hf & Ef & Ep & Em).
      assert (On : forall y, In y (n :: new) -> before o y) by (intros y [<-|Hy]; [exact C|exact (before_trans _ _ _ C (Ln y Hy))]).
      assert (Oo : ~ In o (n :: new)) by (intros H; exact (before_irr o (On o H))).
      destruct op; (split; [|split; [|split; [|split; [|split]]]]); try assumption;
        try (apply sorted_cons; [assumption|intros y Hy; destruct (Sub y); [tauto|auto|auto]]);
        intros x; cbn [In] in *; try rewrite Ef; try rewrite Ep; try rewrite Em; cbn [result In]; (destruct (list_eq_dec ascii_dec o x) as [<-|Ne]; [|]); tauto.
    + specialize (IH2 So Sn'). destruct (mrg op (o :: old) new) as ((p, m), f). pose proof (exact_sub _ _ _ _ _ _ IH2) as Sub.
      destruct IH2 as (Hp & Hm & Hf & Ef & Ep & Em).
      assert (On : forall y, In y (o :: old) -> before n y) by (intros y [<-|Hy]; [exact C|exact (before_trans _ _ _ C (Lo y Hy))]).
      assert (Oo : ~ In n (o :: old)) by (intros H; exact (before_irr n (On n H))).
      destruct op; (split; [|split; [|split; [|split; [|split]]]]); try assumption;
        try (apply sorted_cons; [assumption|intros y Hy; destruct (Sub y); [tauto|auto|auto]]);
        intros x; cbn [In] in *; try rewrite Ef; try rewrite Ep; try rewrite Em; cbn [result In]; (destruct (list_eq_dec ascii_dec n x) as [<-|Ne]; [|]); tauto.
Qed.

Definition tidy (b : buf) : Prop := match b with Some b => items b <> [] | None => True end.
Lemma drop_tidy b : tidy (drop_unused b) /\ buf_items (drop_unused b) = buf_items b.
Proof. destruct b as [[r [|x l]]|]; cbn; repeat split; discriminate. Qed.
Lemma init_ok n : init_buffer (HEADER_CNT + n) = DOk (Some (Dbuf n [])).
Proof. unfold init_buffer, HEADER_CNT. cbn [Nat.add Nat.eqb]. replace (S (S (S (S n))) <? 4) with false by (symmetry; apply Nat.ltb_ge; lia). cbn. rewrite Nat.sub_0_r. reflexivity. Qed.
Lemma init_ok' n k : n = HEADER_CNT + k -> init_buffer n = DOk (Some (Dbuf k [])).
Proof. intros ->. apply init_ok. Qed.

Lemma step_lemma op old new : sorted (opt_list old) -> sorted new ->
  exists p m r f, delta_step_calc op old new = DOk (Delta p m (Some (Dbuf r f))) /\ exact op (opt_list old) new (buf_items p) (buf_items m) f
    /\ length f <= r /\ tidy p /\ tidy m /\ (forall b, p = Some b -> length (items b) <= room b) /\ (forall b, m = Some b -> length (items b) <= room b).
Proof.
  intros So Sn. unfold delta_step_calc. rewrite init_ok. cbn [dbind].
  set (o := opt_list old) in *. change (match old with Some o => o | None => [] end) with o.
  pose proof (mrg_exact op o new So Sn) as X. pose proof (mrg_len op o new) as L.
  assert (G : forall mb fr, (forall l, length l <= length o -> fits mb l) -> length o + length new <= fr -> buf_items mb = [] ->
    exists p m r f, (let? s := delta_walk op o new (Delta (Some (Dbuf (length new) [])) mb (Some (Dbuf fr []))) in
       DOk (Delta (drop_unused (d_plus s)) (drop_unused (d_minus s)) (d_final s))) = DOk (Delta p m (Some (Dbuf r f)))
     /\ exact op o new (buf_items p) (buf_items m) f
     /\ length f <= r /\ tidy p /\ tidy m /\ (forall b, p = Some b -> length (items b) <= room b) /\ (forall b, m = Some b -> length (items b) <= room b)).
  { intros mb fr Fm Lf Em. pose proof (walk_mrg op o new (Delta (Some (Dbuf (length new) [])) mb (Some (Dbuf fr [])))) as W.
    destruct (mrg op o new) as ((p, m), f). destruct L as (L1 & L2 & L3).
    rewrite W; cbn [d_plus d_minus d_final fits items room List.length]; [|lia|apply Fm, L2|lia].
    cbn [dbind d_plus d_minus d_final app_buf items room app].
    do 4 eexists. split; [reflexivity|]. rewrite !(proj2 (drop_tidy _)). cbn [buf_items items].
    assert (Ea : buf_items (app_buf mb m) = m).
    { destruct mb as [[rr ii]|]; cbn in *; [subst; reflexivity|]. specialize (Fm m L2). cbn in Fm. congruence. }
    rewrite Ea. split; [exact X|]. split; [lia|]. split; [apply drop_tidy|]. split; [apply drop_tidy|]. split.
    - intros b E. destruct p; [discriminate|]. injection E as <-. cbn [items room]. exact L1.
    - intros b E. specialize (Fm m L2). destruct mb as [[rr ii]|]; [|discriminate]. cbn in E, Fm, Em. subst ii. cbn [app] in E.
      destruct m; [discriminate|]. injection E as <-. cbn [items room]. cbn in Fm. exact Fm. }
  destruct old as [ol|]; cbn [opt_list] in o; subst o.
  - rewrite (init_ok (length ol)). cbn [dbind]. rewrite (init_ok' _ (length ol + HEADER_CNT + length new)) by (unfold HEADER_CNT; lia). cbn [dbind].
    apply G; [intros l Hl; exact Hl|lia|reflexivity].
  - cbn [init_buffer Nat.eqb dbind Nat.add]. change (0 + (HEADER_CNT + length new)) with (HEADER_CNT + length new).
    rewrite (init_ok (length new)). cbn [dbind]. apply G; [intros [|? ?] Hl; [reflexivity|cbn in Hl; lia]|cbn [List.length]; lia|reflexivity].
Qed.

(* absolute delta *)
Fixpoint kept (l : list bytes) (bits : list bool) : list bytes :=
  match l, bits with x :: l, true :: bits => x :: kept l bits | _ :: l, false :: bits => kept l bits | _, _ => [] end.
Lemma cross_eq old new : cross old new =
    match old, new with
    | [], _ => ([], map (fun _ => true) new)
    | _, [] => (map (fun _ => true) old, [])
    | o :: old', n :: new' =>
      match scmp o n with
      | Lt => let (a, b) := cross old' new in (true :: a, b)
      | Gt => let (a, b) := cross old new' in (a, true :: b)
      | Eq => let (a, b) := cross old' new' in (false :: a, false :: b)
      end
    end.
Proof. destruct old, new; reflexivity. Qed.
Lemma kept_all l : kept l (all_set l) = l. Proof. induction l as [|x l IH]; [reflexivity|]. change (x :: kept l (all_set l) = x :: l). rewrite IH. reflexivity. Qed.
Lemma kept_len l : forall bits, length bits = length l -> length (kept l bits) = length (filter (fun x => x) bits).
Proof. induction l as [|x l IH]; intros [|[] bits] H; try discriminate; cbn in *; try reflexivity; rewrite IH; lia. Qed.
Lemma kept_sub l : forall bits x, In x (kept l bits) -> In x l.
Proof. induction l as [|y l IH]; intros [|[] bits] x H; cbn in H; try contradiction; [destruct H as [->|H]; [left; reflexivity|]|]; right; eauto. Qed.
Lemma kept_sorted l : forall bits, sorted l -> sorted (kept l bits).
Proof.
  induction l as [|y l IH]; intros [|[] bits] H; cbn; try constructor; apply sorted_inv in H as (H & L).
  - apply IH, H.
  - apply Forall_forall. intros x Hx. apply L. eapply kept_sub, Hx.
  - apply IH, H.
Qed.
Lemma cross_len : forall old new, let (a, b) := cross old new in length a = length old /\ length b = length new.
Proof.
  intros old new. pattern old, new. apply two_ind; clear.
  - split; reflexivity.
  - intros n new _. cbn. rewrite map_length. auto.
  - intros o old _. cbn. rewrite map_length. auto.
  - intros o old n new. rewrite (cross_eq (o :: old) (n :: new)). destruct (cross old (n :: new)), (cross (o :: old) new), (cross old new).
    destruct (scmp o n); cbn [List.length]; lia.
Qed.
Lemma cross_kept : forall old new, sorted old -> sorted new -> let (a, b) := cross old new in
  (forall x, In x (kept old a) <-> In x old /\ ~ In x new) /\ (forall x, In x (kept new b) <-> In x new /\ ~ In x old).
Proof.
  intros old new. pattern old, new. apply two_ind; clear.
  - cbn. tauto.
  - intros n new _ _ _. cbn [cross]. change (map (fun _ => true) (n :: new)) with (all_set (n :: new)). rewrite (kept_all (n :: new)). cbn [kept In]. split; intros x; tauto.
  - intros o old _ _ _. cbn [cross]. change (map (fun _ => true) (o :: old)) with (all_set (o :: old)). rewrite (kept_all (o :: old)). cbn [kept In]. split; intros x; tauto.
  - intros o old n new IH1 IH2 IH3 So Sn. rewrite cross_eq. pose proof (scmp_cases o n) as C.
    destruct (sorted_inv _ _ So) as (So' & Lo). destruct (sorted_inv _ _ Sn) as (Sn' & Ln).
    pose proof (sorted_notin _ _ So) as No. pose proof (sorted_notin _ _ Sn) as Nn. destruct (scmp o n).
    + subst n. specialize (IH3 So' Sn'). destruct (cross old new) as (a, b). destruct IH3 as (E1 & E2).
      split; intros x; cbn [kept In]; rewrite ?E1, ?E2; (destruct (list_eq_dec ascii_dec o x) as [<-|Ne]; [|]); tauto.
    + specialize (IH1 So' Sn). destruct (cross old (n :: new)) as (a, b). destruct IH1 as (E1 & E2).
      assert (On : ~ In o (n :: new)) by (intros [<-|H]; [exact (before_irr _ C)|exact (before_irr _ (before_trans _ _ _ C (Ln _ H)))]).
      split; intros x; [cbn [kept]|]; cbn [In] in *; rewrite ?E1, ?E2; (destruct (list_eq_dec ascii_dec o x) as [<-|Ne]; [|]); tauto.
    + specialize (IH2 So Sn'). destruct (cross (o :: old) new) as (a, b). destruct IH2 as (E1 & E2).
      assert (On : ~ In n (o :: old)) by (intros [<-|H]; [exact (before_irr _ C)|exact (before_irr _ (before_trans _ _ _ C (Lo _ H)))]).
      split; intros x; [|cbn [kept]]; cbn [In] in *; rewrite ?E1, ?E2; (destruct (list_eq_dec ascii_dec n x) as [<-|Ne]; [|]); tauto.
Qed.
Lemma add_kept_app l : forall bits b, fits b (kept l bits) -> add_kept b l bits = DOk (app_buf b (kept l bits)).
Proof.
  induction l as [|x l IH]; intros [|[] bits] b H; cbn [add_kept kept] in *; try (rewrite app_buf_nil; reflexivity).
  - destruct (fits_cons _ _ _ H) as (b' & -> & F & E). cbn [dbind]. rewrite IH by exact F. rewrite E. reflexivity.
  - apply IH, H.
Qed.
Lemma insert_in x l y : In y (insert x l) <-> y = x \/ In y l.
Proof.
  induction l as [|z l IH]; cbn [insert In]; [intuition congruence|]. destruct (scmp x z); cbn [In]; rewrite ?IH; intuition congruence.
Qed.
Lemma insert_sorted x l : sorted l -> ~ In x l -> sorted (insert x l).
Proof.
  induction l as [|z l IH]; intros S N; cbn [insert]; [constructor; [exact S|constructor]|].
  pose proof (scmp_cases x z) as C. destruct (sorted_inv _ _ S) as (S' & L). destruct (scmp x z).
  - subst. exfalso. apply N. left. reflexivity.
  - apply sorted_cons; [exact S|]. intros y [<-|H]; [exact C|exact (before_trans _ _ _ C (L y H))].
  - apply sorted_cons; [apply IH; [exact S'|intros H; apply N; right; exact H]|]. intros y H. apply insert_in in H as [->|H]; [exact C|exact (L y H)].
Qed.
Lemma qsort_in l y : In y (qsort l) <-> In y l.
Proof. induction l as [|x l IH]; cbn [qsort fold_right In]; [tauto|]. fold (qsort l). rewrite insert_in, IH. intuition congruence. Qed.
Lemma qsort_sorted l : NoDup l -> sorted (qsort l).
Proof.
  induction l as [|x l IH]; intros H; [constructor|]. inversion H; subst. cbn [qsort fold_right]. fold (qsort l).
  apply insert_sorted; [apply IH; assumption|]. rewrite qsort_in. assumption.
Qed.
Lemma sorted_nodup l : sorted l -> NoDup l.
Proof. induction l as [|x l IH]; intros H; [constructor|]. constructor; [apply sorted_notin, H|]. apply IH. exact (proj1 (sorted_inv _ _ H)). Qed.
Lemma nodup_app (a b : list bytes) : NoDup a -> NoDup b -> (forall x, In x a -> ~ In x b) -> NoDup (a ++ b).
Proof.
  induction a as [|x a IH]; intros Ha Hb D; [exact Hb|]. inversion Ha; subst. cbn. constructor.
  - rewrite in_app_iff. intros [H|H]; [contradiction|]. exact (D x (or_introl eq_refl) H).
  - apply IH; [assumption..|]. intros y Hy. apply D. right. exact Hy.
Qed.

Lemma qsort_len l : length (qsort l) = length l.
Proof.
  induction l as [|x l IH]; [reflexivity|]. cbn [qsort fold_right]. fold (qsort l). cbn [List.length]. rewrite <- IH. generalize (qsort l).
  clear. intros l. induction l as [|y l IH]; [reflexivity|]. cbn [insert]. destruct (scmp x y); cbn [List.length]; rewrite ?IH; reflexivity.
Qed.
(* one half of the absolute delta: old list (if any) and new buffer (if any) *)
Definition half (o : option (list bytes)) (b : buf) (drop_o drop_b : list bytes) (r : buf) : Prop :=
  match r with
  | None => o = None /\ b = None
  | Some r => (o <> None \/ b <> None) /\ sorted (items r) /\ length (items r) <= room r
      /\ (forall x, In x (items r) <-> (In x (opt_list o) /\ ~ In x drop_o) \/ (In x (buf_items b) /\ ~ In x drop_b))
  end.
Definition size_of (o : option (list bytes)) (bo : list bool) (b : buf) (bn : list bool) : nat :=
  let n := (match o with Some _ => set_count bo | None => 0 end) + (match b with Some _ => set_count bn | None => 0 end) in
  match o, b with Some _, Some _ => n - HEADER_CNT | _, _ => n end.
Lemma half_lemma o bo b bn drop_o drop_b : sorted (opt_list o) -> sorted (buf_items b) ->
  length bo = length (opt_list o) -> length bn = length (buf_items b) ->
  (forall x, In x (kept (opt_list o) bo) <-> In x (opt_list o) /\ ~ In x drop_o) ->
  (forall x, In x (kept (buf_items b) bn) <-> In x (buf_items b) /\ ~ In x drop_b) ->
  (forall x, In x (opt_list o) -> ~ In x (buf_items b)) ->
  exists r, init_buffer (size_of o bo b bn) = DOk r
    /\ (exists r1, add_kept r (opt_list o) bo = DOk r1 /\ exists r2, add_kept r1 (buf_items b) bn = DOk r2 /\ half o b drop_o drop_b (sort_buf r2))
    /\ (exists r1, add_kept r (buf_items b) bn = DOk r1 /\ exists r2, add_kept r1 (opt_list o) bo = DOk r2 /\ half o b drop_o drop_b (sort_buf r2)).
Proof.
  intros So Sb Lo Lb Ko Kb D.
  pose proof (kept_len _ _ Lo) as Co. pose proof (kept_len _ _ Lb) as Cb.
  assert (N1 : NoDup (kept (opt_list o) bo ++ kept (buf_items b) bn)).
  { apply nodup_app; [apply sorted_nodup, kept_sorted, So|apply sorted_nodup, kept_sorted, Sb|]. intros x H1 H2. exact (D x (kept_sub _ _ _ H1) (kept_sub _ _ _ H2)). }
  assert (N2 : NoDup (kept (buf_items b) bn ++ kept (opt_list o) bo)).
  { apply nodup_app; [apply sorted_nodup, kept_sorted, Sb|apply sorted_nodup, kept_sorted, So|]. intros x H1 H2. exact (D x (kept_sub _ _ _ H2) (kept_sub _ _ _ H1)). }
  assert (G : (o <> None \/ b <> None) -> size_of o bo b bn = HEADER_CNT + (length (kept (opt_list o) bo) + length (kept (buf_items b) bn))).
  { rewrite Co, Cb. unfold size_of, set_count, HEADER_CNT. destruct o as [lo|], b as [bb|]; cbn [opt_list buf_items] in *; intros [H|H]; try contradiction;
      try (destruct bo; [|discriminate Lo]); try (destruct bn; [|discriminate Lb]); cbn [filter List.length]; lia. }
  destruct o as [lo|].
  2: destruct b as [bb|].
  3:{ exists None. split; [reflexivity|]. cbn [opt_list buf_items] in *. destruct bo; [|discriminate]. destruct bn; [|discriminate].
      split; exists None; (split; [reflexivity|]); exists None; (split; [reflexivity|]); cbn; auto. }
  all: eexists; (split; [apply init_ok', G; first [left; discriminate|right; discriminate]|]).
  all: set (K1 := kept (opt_list _) bo) in *; set (K2 := kept (buf_items b) bn) in * || set (K2 := kept (buf_items (Some bb)) bn) in *.
  all: split.
  all: eexists; (split; [apply add_kept_app; fold K1; fold K2; cbn [fits items room List.length]; lia|]); fold K1; fold K2;
    eexists; (split; [apply add_kept_app; fold K1; fold K2; cbn [fits app_buf items room List.length app]; lia|]); fold K1; fold K2;
    cbn [app_buf sort_buf room items app half]; split; [first [left; discriminate|right; discriminate]|];
    split; [apply qsort_sorted; assumption|]; split; [rewrite qsort_len, app_length; lia|];
    intros x; rewrite qsort_in, in_app_iff; fold K1 in Ko; fold K2 in Kb; rewrite Ko, Kb; tauto.
Qed.

Lemma abs_lemma old_plus old_minus p m f :
  sorted (opt_list old_plus) -> sorted (opt_list old_minus) -> sorted (buf_items p) -> sorted (buf_items m) ->
  (forall x, In x (opt_list old_plus) -> ~ In x (buf_items p)) -> (forall x, In x (opt_list old_minus) -> ~ In x (buf_items m)) ->
  (p = None /\ m = None /\ delta_abs_calc old_plus old_minus (Delta p m f) = DOk (None, None))
  \/ exists plus minus, delta_abs_calc old_plus old_minus (Delta p m f) = DOk (plus, minus)
     /\ half old_plus p (buf_items m) (opt_list old_minus) plus /\ half old_minus m (buf_items p) (opt_list old_plus) minus.
Proof.
  intros S1 S2 S3 S4 D1 D2. unfold delta_abs_calc. cbn [d_plus d_minus].
  set (l := fun o : option (list bytes) => match o with Some l => l | None => [] end).
  change (l old_plus) with (opt_list old_plus). change (l old_minus) with (opt_list old_minus).
  assert (G : forall p_old m_new m_old p_new,
     match m with Some m => cross (opt_list old_plus) (items m) | None => (all_set (opt_list old_plus), []) end = (p_old, m_new) ->
     match p with Some p => cross (opt_list old_minus) (items p) | None => (all_set (opt_list old_minus), []) end = (m_old, p_new) ->
     (exists plus minus,
       (let? plus := init_buffer (size_of old_plus p_old p p_new) in
        let? minus := init_buffer (size_of old_minus m_old m m_new) in
        let? plus := add_kept plus (opt_list old_plus) p_old in
        let? minus := add_kept minus (buf_items m) m_new in
        let? minus := add_kept minus (opt_list old_minus) m_old in
        let? plus := add_kept plus (buf_items p) p_new in
        DOk (sort_buf plus, sort_buf minus)) = DOk (plus, minus)
     /\ half old_plus p (buf_items m) (opt_list old_minus) plus /\ half old_minus m (buf_items p) (opt_list old_plus) minus)).
  { intros p_old m_new m_old p_new E1 E2.
    assert (C1 : length p_old = length (opt_list old_plus) /\ length m_new = length (buf_items m)
      /\ (forall x, In x (kept (opt_list old_plus) p_old) <-> In x (opt_list old_plus) /\ ~ In x (buf_items m))
      /\ (forall x, In x (kept (buf_items m) m_new) <-> In x (buf_items m) /\ ~ In x (opt_list old_plus))).
    { destruct m as [m|]; cbn [buf_items] in *.
      - pose proof (cross_len (opt_list old_plus) (items m)) as L. pose proof (cross_kept _ _ S1 S4) as K. rewrite E1 in L, K. tauto.
      - injection E1 as <- <-. rewrite kept_all. unfold all_set. rewrite map_length. cbn. repeat split; tauto. }
    assert (C2 : length m_old = length (opt_list old_minus) /\ length p_new = length (buf_items p)
      /\ (forall x, In x (kept (opt_list old_minus) m_old) <-> In x (opt_list old_minus) /\ ~ In x (buf_items p))
      /\ (forall x, In x (kept (buf_items p) p_new) <-> In x (buf_items p) /\ ~ In x (opt_list old_minus))).
    { destruct p as [p|]; cbn [buf_items] in *.
      - pose proof (cross_len (opt_list old_minus) (items p)) as L. pose proof (cross_kept _ _ S2 S3) as K. rewrite E2 in L, K. tauto.
      - injection E2 as <- <-. rewrite kept_all. unfold all_set. rewrite map_length. cbn. repeat split; tauto. }
    destruct C1 as (L1 & L2 & K1 & K2). destruct C2 as (L3 & L4 & K3 & K4).
    destruct (half_lemma old_plus p_old p p_new _ _ S1 S3 L1 L4 K1 K4 D1) as (bp & -> & (b1 & F1 & b2 & F2 & H1) & _).
    destruct (half_lemma old_minus m_old m m_new _ _ S2 S4 L3 L2 K3 K2 D2) as (bm & -> & _ & (b3 & F3 & b4 & F4 & H2)).
    cbn [dbind]. rewrite F1. cbn [dbind]. rewrite F3. cbn [dbind]. rewrite F4. cbn [dbind]. rewrite F2. cbn [dbind].
    do 2 eexists. split; [reflexivity|]. split; assumption. }
  cbv zeta. unfold opt_list in *. clearbody l.
  destruct p as [p|]; [right|destruct m as [m|]; [right|left; auto]].
  - destruct (match m with Some m => cross _ (items m) | None => _ end) as (p_old, m_new). destruct (cross _ (items p)) as (m_old, p_new).
    destruct old_plus, old_minus; exact (G _ _ _ _ eq_refl eq_refl).
  - destruct (cross _ (items m)) as (p_old, m_new). destruct old_plus, old_minus; exact (G _ _ _ _ eq_refl eq_refl).
Qed.

(* One member list and its deltas *)
Definition PL := "+"%char. Definition MI := "-"%char.
Definition dkey_ok (d : db) (kc : bytes) : Prop :=
  match recs d kc with None => indexed d kc = false | Some r => has (r_flags r) FL_SYNC = true /\ indexed d kc = true /\ r_data r <> [] end.
Definition inv_at (d0 d : db) (k : bytes) : Prop :=
  sorted (members d k) /\ sorted (members d (PL :: k)) /\ sorted (members d (MI :: k))
  /\ (forall x, In x (members d (PL :: k)) <-> In x (members d k) /\ ~ In x (members d0 k))
  /\ (forall x, In x (members d (MI :: k)) <-> In x (members d0 k) /\ ~ In x (members d k))
  /\ dkey_ok d (PL :: k) /\ dkey_ok d (MI :: k).
Definition same_at (d d' : db) (x : bytes) : Prop := recs d' x = recs d x /\ indexed d' x = indexed d x.
Definition frame (d d' : db) (k : bytes) : Prop := forall x, x <> k -> x <> PL :: k -> x <> MI :: k -> same_at d d' x.
Lemma frame_refl d k : frame d d k. Proof. split; reflexivity. Qed.
Lemma same_trans d d' d'' x : same_at d d' x -> same_at d' d'' x -> same_at d d'' x.
Proof. unfold same_at. intuition congruence. Qed.
Lemma same_members d d' x : same_at d d' x -> members d' x = members d x.
Proof. intros (E & _). unfold members. rewrite E. reflexivity. Qed.
Lemma same_data d d' x : same_at d d' x -> data_at d' x = data_at d x.
Proof. intros (E & _). unfold data_at. rewrite E. reflexivity. Qed.
Lemma same_inv d0 d d' k : same_at d d' k -> same_at d d' (PL :: k) -> same_at d d' (MI :: k) -> inv_at d0 d k -> inv_at d0 d' k.
Proof.
  intros S1 S2 S3 H. unfold inv_at, dkey_ok in *. rewrite (same_members _ _ _ S1), (same_members _ _ _ S2), (same_members _ _ _ S3).
  rewrite (proj1 S2), (proj2 S2), (proj1 S3), (proj2 S3). exact H.
Qed.
Lemma has_sync f : has (N.lor f FL_SYNC) FL_SYNC = true.
Proof.
  unfold has, FL_SYNC. rewrite N.land_lor_distr_l. change (N.land 2 2) with 2%N.
  destruct (N.eqb_spec (N.lor (N.land f 2) 2) 0) as [E|]; [|reflexivity]. apply N.lor_eq_0_iff in E as (_ & E). discriminate.
Qed.
Lemma put_same m k v : put m k v k = v. Proof. unfold put. rewrite key_eqb_refl. reflexivity. Qed.
Lemma put_other m k v x : x <> k -> put m k v x = m x. Proof. unfold put. destruct (key_eqb_spec x k); congruence. Qed.
Lemma mark_same m k v : mark m k v k = v. Proof. unfold mark. rewrite key_eqb_refl. reflexivity. Qed.
Lemma mark_other m k v x : x <> k -> mark m k v x = m x. Proof. unfold mark. destruct (key_eqb_spec x k); congruence. Qed.
Lemma core_allowed old : (check_kv_wr_allowed old OWNER_CORE <? 0)%Z = false.
Proof. destruct old as [o|]; [|reflexivity]. unfold check_kv_wr_allowed. rewrite (proj2 (core_lemma _ _) eq_refl). reflexivity. Qed.

Definition stored_abs (d' : db) (kc : bytes) (l : list bytes) : Prop := members d' kc = l /\ dkey_ok d' kc.
Lemma store_abs_lemma d c k h b : In c [PL; MI] -> h_owner h = OWNER_CORE -> dkey_ok d (c :: k) ->
  stored_abs (store_abs d (c :: k) h b) (c :: k) (items b) /\ forall x, x <> c :: k -> same_at d (store_abs d (c :: k) h b) x.
Proof.
  intros Hc Ho K. unfold store_abs.
  assert (C : canonicalize_key (c :: k) = c :: k) by (destruct Hc as [<-|[<-|[]]]; reflexivity).
  destruct (items b) as [|i l] eqn:E.
  - unfold kvs_unset. rewrite C. cbn [h_owner]. rewrite Ho, core_allowed. unfold manage_kv_index, check_kv_index_needed. cbn [recs indexed].
    unfold dkey_ok in K. destruct (recs d (c :: k)) as [r|] eqn:R.
    + destruct K as (K1 & K2 & K3). rewrite K1. cbn [andb negb Z.eqb KV_INDEX_REMOVE KV_INDEX_ADD Pos.eqb]. split.
      * unfold stored_abs, members, dkey_ok. cbn [recs indexed]. rewrite put_same, mark_same. auto.
      * intros x Hx. split; cbn [recs indexed]; [apply put_other, Hx|apply mark_other, Hx].
    + cbn [andb negb Z.eqb KV_INDEX_NOOP KV_INDEX_REMOVE KV_INDEX_ADD]. split.
      * unfold stored_abs, members, dkey_ok. cbn [recs indexed]. rewrite put_same. auto.
      * intros x Hx. split; cbn [recs indexed]; [apply put_other, Hx|reflexivity].
  - unfold kvs_set. rewrite C. unfold cb_write. cbn [r_owner rec_with h_owner h_flags h_seq h_gen]. rewrite Ho, core_allowed.
    unfold manage_kv_index, check_kv_index_needed. cbn [recs indexed r_flags rec_with h_flags]. rewrite has_sync.
    unfold dkey_ok in K. destruct (recs d (c :: k)) as [r|] eqn:R.
    + destruct K as (K1 & K2 & K3). rewrite K1. cbn [andb negb Z.eqb KV_INDEX_NOOP KV_INDEX_REMOVE KV_INDEX_ADD]. split.
      * unfold stored_abs, members, dkey_ok. cbn [recs indexed]. rewrite put_same. cbn [r_data r_flags rec_with h_flags]. rewrite has_sync. repeat split; [exact K2|discriminate].
      * intros x Hx. split; cbn [recs indexed]; [apply put_other, Hx|reflexivity].
    + cbn [andb negb Z.eqb KV_INDEX_NOOP KV_INDEX_REMOVE KV_INDEX_ADD Pos.eqb]. split.
      * unfold stored_abs, members, dkey_ok. cbn [recs indexed]. rewrite put_same, mark_same. cbn [r_data r_flags rec_with h_flags]. rewrite has_sync. repeat split. discriminate.
      * intros x Hx. split; cbn [recs indexed]; [apply put_other, Hx|apply mark_other, Hx].
Qed.

Lemma members_data d k : opt_list (data_at d k) = members d k.
Proof. unfold data_at, members. destruct (recs d k); reflexivity. Qed.
Definition buf_stored (d1 d2 : db) (kc : bytes) (b : buf) : Prop :=
  match b with None => same_at d1 d2 kc | Some b => stored_abs d2 kc (items b) end.
Lemma half_members o b x1 x2 r d1 d2 kc : half o b x1 x2 r -> o = data_at d1 kc -> buf_stored d1 d2 kc r -> dkey_ok d1 kc ->
  dkey_ok d2 kc /\ sorted (members d2 kc) /\ forall x, In x (members d2 kc) <-> (In x (opt_list o) /\ ~ In x x1) \/ (In x (buf_items b) /\ ~ In x x2).
Proof.
  intros H Eo S K. destruct r as [r|]; cbn [half buf_stored] in *.
  - destruct S as (S1 & S2). destruct H as (_ & Hs & _ & Hx). rewrite S1. auto.
  - destruct H as (-> & ->). rewrite (same_members _ _ _ S). unfold dkey_ok. rewrite (proj1 S), (proj2 S). split; [exact K|].
    rewrite <- members_data, <- Eo. cbn. split; [constructor|tauto].
Qed.

Lemma state_lemma d0 d k h op new : main_key k -> inv_at d0 d k -> h_owner h = OWNER_CORE -> sorted new ->
  exists d1 s plus minus f, delta_write d k h op new false = DOk (d1, 0%Z, s)
    /\ exact op (members d k) new (buf_items (d_plus s)) (buf_items (d_minus s)) f /\ members d1 k = f
    /\ (forall x, x <> k -> same_at d d1 x)
    /\ delta_abs_calc (data_at d1 (PL :: k)) (data_at d1 (MI :: k)) s = DOk (plus, minus)
    /\ (plus = None -> buf_items (d_plus s) = []) /\ (minus = None -> buf_items (d_minus s) = [])
    /\ forall d2, recs d2 k = recs d1 k -> buf_stored d1 d2 (PL :: k) plus -> buf_stored d1 d2 (MI :: k) minus -> inv_at d0 d2 k.
Proof.
  intros Mk (I1 & I2 & I3 & I4 & I5 & I6 & I7) Ho Sn. unfold delta_write. rewrite Ho, core_allowed.
  destruct (step_lemma op (data_at d k) new) as (p & m & r & f & -> & X & Lf & T1 & T2 & _ & _); [rewrite members_data; exact I1|exact Sn|].
  rewrite members_data in X. cbn [d_final items].
  set (d1 := Db (put (recs d) k (Some (rec_with h f))) (indexed d)).
  assert (F : forall x, x <> k -> same_at d d1 x) by (intros x Hx; split; [apply put_other, Hx|reflexivity]).
  assert (M1 : members d1 k = f) by (unfold members, d1; cbn [recs]; rewrite put_same; reflexivity).
  assert (NP : PL :: k <> k) by (intros E; apply (f_equal (@length _)) in E; cbn in E; lia).
  assert (NM : MI :: k <> k) by (intros E; apply (f_equal (@length _)) in E; cbn in E; lia).
  pose proof (F _ NP) as FP. pose proof (F _ NM) as FM.
  assert (K1 : dkey_ok d1 (PL :: k)) by (unfold dkey_ok; rewrite (proj1 FP), (proj2 FP); exact I6).
  assert (K2 : dkey_ok d1 (MI :: k)) by (unfold dkey_ok; rewrite (proj1 FM), (proj2 FM); exact I7).
  destruct X as (Xp & Xm & Xf & Ef & Ep & Em).
  assert (X : exact op (members d k) new (buf_items p) (buf_items m) f) by (unfold exact; tauto).
  exists d1, (Delta p m (Some (Dbuf r f))).
  pose proof (abs_lemma (data_at d1 (PL :: k)) (data_at d1 (MI :: k)) p m (Some (Dbuf r f))) as A.
  rewrite !members_data, (same_members _ _ _ FP), (same_members _ _ _ FM) in A. specialize (A I2 I3 Xp Xm).
  assert (D1 : forall x, In x (members d (PL :: k)) -> ~ In x (buf_items p)) by (intros x; rewrite I4, Ep; tauto).
  assert (D2 : forall x, In x (members d (MI :: k)) -> ~ In x (buf_items m)) by (intros x; rewrite I5, Em; tauto).
  destruct (A D1 D2) as [(-> & -> & A1)|(plus & minus & A1 & H1 & H2)]; clear A.
  - exists None, None, f. split; [reflexivity|]. split; [exact X|]. split; [exact M1|]. split; [exact F|]. split; [exact A1|]. split; [reflexivity|]. split; [reflexivity|].
    intros d2 E1 S1 S2. cbn [buf_stored] in S1, S2. pose proof (same_trans _ _ _ _ FP S1) as T3. pose proof (same_trans _ _ _ _ FM S2) as T4.
    unfold inv_at. rewrite (same_members _ _ _ T3), (same_members _ _ _ T4).
    assert (M2 : members d2 k = f) by (unfold members; rewrite E1; exact M1). rewrite M2. unfold dkey_ok. rewrite (proj1 T3), (proj2 T3), (proj1 T4), (proj2 T4).
    cbn [buf_items In] in *.
    assert (Q : forall x, In x f <-> In x (members d k)) by (intros x; rewrite Ef; specialize (Ep x); specialize (Em x); destruct (bytes_dec x (members d k)), (bytes_dec x new); destruct op; cbn [result] in *; tauto).
    repeat split; try assumption; try (apply I4); try apply I5; try (intros (Q1 & Q2)); try (apply I4; rewrite <- Q; auto); try (apply I5; rewrite <- Q; auto).
    all: try (rewrite Q; apply I4; assumption). all: try (apply I4; assumption). all: try (rewrite Q; apply I5; assumption).
  - exists plus, minus, f. split; [reflexivity|]. split; [exact X|]. split; [exact M1|]. split; [exact F|]. split; [exact A1|].
    split; [intros ->; cbn in H1 |- *; destruct H1 as (_ & ->); reflexivity|]. split; [intros ->; cbn in H2 |- *; destruct H2 as (_ & ->); reflexivity|].
    intros d2 E1 S1 S2.
    destruct (half_members _ _ _ _ _ d1 d2 _ H1 eq_refl S1 K1) as (Q1 & Q2 & Q3). destruct (half_members _ _ _ _ _ d1 d2 _ H2 eq_refl S2 K2) as (Q4 & Q5 & Q6).
    rewrite !members_data in Q3, Q6. rewrite ?(same_members _ _ _ FP), ?(same_members _ _ _ FM) in Q3; rewrite ?(same_members _ _ _ FP), ?(same_members _ _ _ FM) in Q6.
    assert (M2 : members d2 k = f) by (unfold members; rewrite E1; exact M1).
    unfold inv_at. rewrite M2. split; [exact Xf|]. split; [exact Q2|]. split; [exact Q5|]. split; [|split; [|split; assumption]].
    + intros x. rewrite Q3, I4, I5, Ep, Em, Ef. destruct (bytes_dec x (members d k)), (bytes_dec x new), (bytes_dec x (members d0 k)); destruct op; cbn [result]; tauto.
    + intros x. rewrite Q6, I4, I5, Ep, Em, Ef. destruct (bytes_dec x (members d k)), (bytes_dec x new), (bytes_dec x (members d0 k)); destruct op; cbn [result]; tauto.
Qed.

Definition plain (s : key_spec) : Prop := ks_extra s = None /\ ks_op s = OP_SET.
Lemma store_plain s : plain s -> store_key s = joined (parts_of s) /\ main_key (store_key s)
  /\ store_key (with_op s OP_PLUS) = PL :: store_key s /\ store_key (with_op s OP_MINUS) = MI :: store_key s.
Proof.
  intros (E & O). destruct s as [e o dm n np c i co]. cbn in E, O. subst. unfold store_key.
  rewrite !canon_blank by (left; reflexivity). repeat split; reflexivity.
Qed.
Lemma main_ne k k' : main_key k -> main_key k' -> k' <> PL :: k /\ k' <> MI :: k.
Proof. intros _ H. split; intros ->; discriminate H. Qed.
Lemma cons_ne (c : ascii) (k k' : bytes) : k' <> k -> c :: k' <> c :: k. Proof. congruence. Qed.
Lemma frame_main d d' k k' : main_key k -> main_key k' -> k' <> k -> frame d d' k -> same_at d d' k' /\ same_at d d' (PL :: k') /\ same_at d d' (MI :: k').
Proof.
  intros M M' N F. destruct (main_ne k k' M M') as (N1 & N2).
  split; [apply F; assumption|]. split; apply F; try congruence; try (intros E; rewrite <- E in M; discriminate M).
Qed.
Lemma buf_stored_store d c k h b : In c [PL; MI] -> h_owner h = OWNER_CORE -> dkey_ok d (c :: k) ->
  let d' := match b with Some p => store_abs d (c :: k) h p | None => d end in
  buf_stored d d' (c :: k) b /\ forall x, x <> c :: k -> same_at d d' x.
Proof.
  intros Hc Ho K. destruct b as [b|]; cbn [buf_stored].
  - apply store_abs_lemma; assumption.
  - split; [split; reflexivity|]. intros; split; reflexivity.
Qed.
Lemma dkey_same d d' x : same_at d d' x -> dkey_ok d x -> dkey_ok d' x.
Proof. intros (E1 & E2). unfold dkey_ok. rewrite E1, E2. auto. Qed.
Lemma buf_stored_same d1 d2 d3 d4 kc b : buf_stored d2 d3 kc b -> same_at d1 d2 kc -> same_at d3 d4 kc -> buf_stored d1 d4 kc b.
Proof.
  destruct b as [b|]; cbn [buf_stored]; intros S T1 T2; [|eauto using same_trans]. destruct S as (S1 & S2). split; [rewrite (same_members _ _ _ T2); exact S1|exact (dkey_same _ _ _ T2 S2)].
Qed.

Lemma diff_lemma d0 d cur h op new : plain cur -> inv_at d0 d (store_key cur) -> h_owner h = OWNER_CORE -> sorted new ->
  exists d', delta_set_diff d cur h op new = Ok (d', 0%Z) /\ inv_at d0 d' (store_key cur) /\ frame d d' (store_key cur)
    /\ forall x, In x (members d' (store_key cur)) <-> result op (members d (store_key cur)) new x.
Proof.
  intros P I Ho Sn. destruct (store_plain cur P) as (_ & Mk & Kp & Km). unfold delta_set_diff. rewrite Kp, Km. set (k := store_key cur) in *.
  destruct (state_lemma d0 d k h op new Mk I Ho Sn) as (d1 & s & plus & minus & f & -> & X & Mf & Fr & A & _ & _ & G).
  cbn [Z.ltb Z.compare]. rewrite A.
  assert (NP : PL :: k <> k) by (intros E; apply (f_equal (@length _)) in E; cbn in E; lia).
  assert (NM : MI :: k <> k) by (intros E; apply (f_equal (@length _)) in E; cbn in E; lia).
  assert (NN : MI :: k <> PL :: k) by discriminate.
  destruct I as (_ & _ & _ & _ & _ & I6 & I7).
  pose proof (dkey_same _ _ _ (Fr _ NP) I6) as K1. pose proof (dkey_same _ _ _ (Fr _ NM) I7) as K2.
  destruct (buf_stored_store d1 PL k h plus (or_introl eq_refl) Ho K1) as (B1 & C1). cbn zeta in B1, C1.
  set (d2 := match plus with Some p => store_abs d1 (PL :: k) h p | None => d1 end) in *.
  destruct (buf_stored_store d2 MI k h minus (or_intror (or_introl eq_refl)) Ho (dkey_same _ _ _ (C1 _ NN) K2)) as (B2 & C2). cbn zeta in B2, C2.
  set (d3 := match minus with Some p => store_abs d2 (MI :: k) h p | None => d2 end) in *.
  assert (Nk : k <> PL :: k /\ k <> MI :: k) by (split; congruence).
  exists d3. split; [reflexivity|]. split; [|split].
  - apply G.
    + rewrite (proj1 (C2 k (proj2 Nk))), (proj1 (C1 k (proj1 Nk))). reflexivity.
    + eapply buf_stored_same; [exact B1|split; reflexivity|apply C2; congruence].
    + eapply buf_stored_same; [exact B2|apply C1; exact NN|split; reflexivity].
  - intros x H1 H2 H3. eapply same_trans; [apply Fr, H1|]. eapply same_trans; [apply C1, H2|apply C2, H3].
  - intros x. assert (E : members d3 k = f) by (unfold members; rewrite (proj1 (C2 k (proj2 Nk))), (proj1 (C1 k (proj1 Nk))); exact Mf). rewrite E. apply X.
Qed.

Definition rel_key (rel : key_spec) (x k : bytes) : Prop := exists s, relative rel x = Some s /\ store_key s = k.
Definition rel_good (rel : key_spec) (k x : bytes) : Prop := exists s, relative rel x = Some s /\ plain s /\ store_key s <> k.
Definition inv_but (d0 d : db) (k : bytes) : Prop := forall k', main_key k' -> k' <> k -> inv_at d0 d k'.
Definition same3 (d d' : db) (k : bytes) : Prop := same_at d d' k /\ same_at d d' (PL :: k) /\ same_at d d' (MI :: k).
Lemma sorted_one x : sorted [x]. Proof. constructor; constructor. Qed.
Definition rels_result (op : kv_op) (was : Prop) (hit : Prop) : Prop := match op with OP_MINUS => was /\ ~ hit | _ => was \/ hit end.
Lemma rels_lemma d0 cur rel h op k : h_owner h = OWNER_CORE -> op = OP_PLUS \/ op = OP_MINUS -> main_key k ->
  forall l d, (forall x, In x l -> rel_good rel k x) -> inv_but d0 d k ->
  exists d', delta_rels d cur rel h op l = Ok (d', 0%Z) /\ inv_but d0 d' k /\ same3 d d' k
   /\ forall k' y, main_key k' -> k' <> k ->
        (In y (members d' k') <-> rels_result op (In y (members d k')) (y = compose_key_prefix cur /\ exists x, In x l /\ rel_key rel x k')).
Proof.
  intros Ho Hop Mk. induction l as [|x l IH]; intros d R I; cbn [delta_rels].
  - exists d. split; [reflexivity|]. split; [exact I|]. split; [repeat split; reflexivity|]. intros k' y _ _.
    destruct Hop as [->| ->]; cbn [rels_result]; (split; [|]); intros H; try tauto; try (destruct H as [H|(_ & x & [] & _)]; exact H); try (split; [exact H|intros (_ & x & [] & _)]).
  - destruct (R x (or_introl eq_refl)) as (s & E & Ps & Ns). rewrite E. destruct (store_plain s Ps) as (_ & Ms & _ & _).
    destruct (diff_lemma d0 d s (Hdr (h_seq h) FLAGS_NO_SYNC (h_gen h) (h_owner h)) op [compose_key_prefix cur] Ps (I _ Ms Ns) Ho (sorted_one _)) as (d1 & -> & I1 & Fr & Mr).
    cbn [obind].
    assert (I2 : inv_but d0 d1 k).
    { intros k' M' N'. destruct (list_eq_dec ascii_dec k' (store_key s)) as [->|N2]; [exact I1|].
      destruct (frame_main d d1 _ k' Ms M' N2 Fr) as (F1 & F2 & F3). exact (same_inv _ _ _ _ F1 F2 F3 (I _ M' N')). }
    destruct (IH d1 (fun y H => R y (or_intror H)) I2) as (d' & E' & I' & S' & M').
    exists d'. split; [exact E'|]. split; [exact I'|]. split.
    + destruct (frame_main d d1 _ k Ms Mk (not_eq_sym Ns) Fr) as (F1 & F2 & F3). destruct S' as (S1 & S2 & S3). repeat split; first [apply (same_trans _ _ _ _ F1 S1)|apply (same_trans _ _ _ _ F2 S2)|apply (same_trans _ _ _ _ F3 S3)].
    + intros k' y Mk' Nk'. rewrite M' by assumption.
      assert (Q : In y (members d1 k') <-> rels_result op (In y (members d k')) (y = compose_key_prefix cur /\ rel_key rel x k')).
      { destruct (list_eq_dec ascii_dec k' (store_key s)) as [->|N2].
        - rewrite Mr. assert (RK : rel_key rel x (store_key s)) by (exists s; auto).
          assert (Y : (compose_key_prefix cur = y \/ False) <-> (y = compose_key_prefix cur /\ rel_key rel x (store_key s)))
            by (split; [intros [<-|[]]; auto|intros (-> & _); auto]).
          destruct Hop as [->| ->]; cbn [result rels_result In]; tauto.
        - destruct (frame_main d d1 _ k' Ms Mk' N2 Fr) as (F1 & _). rewrite (same_members _ _ _ F1).
          assert (RK : ~ rel_key rel x k') by (intros (s' & E2 & E3); apply N2; congruence). destruct Hop as [->| ->]; cbn [rels_result]; tauto. }
      destruct Hop as [->| ->]; cbn [rels_result] in *; rewrite Q; split.
      * intros [[H|(-> & H)]|(-> & z & H1 & H2)]; [tauto| |]; right; (split; [reflexivity|]); eexists; (split; [|eassumption]); [left; reflexivity|right; exact H1].
      * intros [H|(-> & z & [->|H1] & H2)]; [tauto|tauto|]. right. split; [reflexivity|]. exists z. auto.
      * intros ((H1 & H2) & H3). split; [exact H1|]. intros (-> & z & [->|H4] & H5); [apply H2; auto|]. apply H3. split; [reflexivity|]. exists z. auto.
      * intros (H1 & H2). split; [split; [exact H1|]|].
        -- intros (-> & H3). apply H2. split; [reflexivity|]. exists x. split; [left; reflexivity|exact H3].
        -- intros (-> & z & H3 & H4). apply H2. split; [reflexivity|]. exists z. split; [right; exact H3|exact H4].
Qed.

Definition inv_all (d0 d : db) : Prop := forall k, main_key k -> inv_at d0 d k.
Lemma kv_lemma d0 d cur rel h op new : let k := store_key cur in let old := members d k in
  plain cur -> inv_all d0 d -> h_owner h = OWNER_CORE -> sorted new -> (forall x, In x old \/ In x new -> rel_good rel k x) ->
  exists d', kv_delta_set d cur rel h op new = Ok (d', 0%Z) /\ inv_all d0 d'
   /\ (forall x, In x (members d' k) <-> result op old new x)
   /\ forall k' y, main_key k' -> k' <> k ->
        (In y (members d' k') <->
          (In y (members d k') \/ (y = compose_key_prefix cur /\ exists x, (result op old new x /\ ~ In x old) /\ rel_key rel x k'))
          /\ ~ (y = compose_key_prefix cur /\ exists x, (In x old /\ ~ result op old new x) /\ rel_key rel x k')).
Proof.
  intros k old P I Ho Sn R. destruct (store_plain cur P) as (_ & Mk & Kp & Km). unfold kv_delta_set, delta_update. rewrite Kp, Km. fold k in Mk |- *.
  destruct (state_lemma d0 d k h op new Mk (I _ Mk) Ho Sn) as (d1 & s & plus & minus & f & -> & X & Mf & Fr & A & Np & Nm & G).
  cbn [Z.ltb Z.compare]. rewrite A.
  assert (NP : PL :: k <> k) by (intros E; apply (f_equal (@length _)) in E; cbn in E; lia).
  assert (NM : MI :: k <> k) by (intros E; apply (f_equal (@length _)) in E; cbn in E; lia).
  assert (NN : MI :: k <> PL :: k) by discriminate. assert (NN' : PL :: k <> MI :: k) by discriminate.
  destruct (I _ Mk) as (_ & _ & _ & _ & _ & I6 & I7).
  pose proof (dkey_same _ _ _ (Fr _ NP) I6) as K1. pose proof (dkey_same _ _ _ (Fr _ NM) I7) as K2.
  pose proof (exact_sub _ _ _ _ _ _ X) as Sub. destruct X as (_ & _ & _ & Ef & Ep & Em). fold old in Ef, Ep, Em, Sub.
  assert (IB1 : inv_but d0 d1 k).
  { intros k' M' N'. apply (same_inv d0 d); [apply Fr|apply Fr|apply Fr|apply I, M']; try congruence; intros E; rewrite <- E in Mk; discriminate Mk. }
  (* plus *)
  set (d2 := match plus with Some p => store_abs d1 (PL :: k) h p | None => d1 end).
  destruct (buf_stored_store d1 PL k h plus (or_introl eq_refl) Ho K1) as (B1 & C1). cbn zeta in B1, C1. fold d2 in B1, C1.
  assert (IB2 : inv_but d0 d2 k).
  { intros k' M' N'. apply (same_inv d0 d1); [apply C1|apply C1|apply C1|apply IB1; assumption]; try congruence; try (intros E; rewrite E in M'; discriminate M'). }
  destruct (rels_lemma d0 cur rel h OP_PLUS k Ho (or_introl eq_refl) Mk (buf_items (d_plus s)) d2) as (d3 & E3 & I3 & (S31 & S32 & S33) & M3).
  { intros x H. apply R, Sub. auto. }
  { exact IB2. }
  assert (Q1 : match plus with None => Ok (d1, 0%Z) | Some a => delta_rels (store_abs d1 (PL :: k) h a) cur rel h OP_PLUS (buf_items (d_plus s)) end = Ok (d3, 0%Z)).
  { destruct plus as [p|]; [exact E3|]. rewrite (Np eq_refl) in E3. cbn [delta_rels] in E3. exact E3. }
  rewrite Q1. cbn [obind Z.ltb Z.compare].
  (* minus *)
  assert (K3 : dkey_ok d3 (MI :: k)) by (apply (dkey_same _ _ _ S33), (dkey_same _ _ _ (C1 _ NN)), K2).
  set (d4 := match minus with Some p => store_abs d3 (MI :: k) h p | None => d3 end).
  destruct (buf_stored_store d3 MI k h minus (or_intror (or_introl eq_refl)) Ho K3) as (B2 & C2). cbn zeta in B2, C2. fold d4 in B2, C2.
  assert (IB4 : inv_but d0 d4 k).
  { intros k' M' N'. apply (same_inv d0 d3); [apply C2|apply C2|apply C2|apply I3; assumption]; try congruence; try (intros E; rewrite E in M'; discriminate M'). }
  destruct (rels_lemma d0 cur rel h OP_MINUS k Ho (or_intror eq_refl) Mk (buf_items (d_minus s)) d4) as (d5 & E5 & I5 & (S51 & S52 & S53) & M5).
  { intros x H. apply R, Sub. auto. }
  { exact IB4. }
  assert (Q2 : match minus with None => Ok (d3, 0%Z) | Some a => delta_rels (store_abs d3 (MI :: k) h a) cur rel h OP_MINUS (buf_items (d_minus s)) end = Ok (d5, 0%Z)).
  { destruct minus as [p|]; [exact E5|]. rewrite (Nm eq_refl) in E5. cbn [delta_rels] in E5. exact E5. }
  rewrite Q2. cbn [obind Z.ltb Z.compare].
  assert (Nk : k <> PL :: k /\ k <> MI :: k) by (split; congruence).
  assert (Sk : same_at d1 d5 k).
  { eapply same_trans; [apply C1, Nk|]. eapply same_trans; [exact S31|]. eapply same_trans; [apply C2, Nk|exact S51]. }
  exists d5. split; [reflexivity|]. split; [|split].
  - intros k' M'. destruct (list_eq_dec ascii_dec k' k) as [->|N']; [|apply I5; assumption]. apply G.
    + apply Sk.
    + eapply buf_stored_same; [exact B1|split; reflexivity|]. eapply same_trans; [exact S32|]. eapply same_trans; [apply C2, NN'|exact S52].
    + eapply buf_stored_same; [exact B2| |exact S53]. eapply same_trans; [apply C1, NN|exact S33].
  - intros x. rewrite (same_members _ _ _ Sk), Mf. apply Ef.
  - intros k' y M' N'. rewrite M5 by assumption. cbn [rels_result].
    rewrite (same_members d3 d4 k') by (apply C2; intros E; rewrite E in M'; discriminate M').
    rewrite M3 by assumption. cbn [rels_result].
    rewrite (same_members d1 d2 k') by (apply C1; intros E; rewrite E in M'; discriminate M').
    rewrite (same_members d d1 k') by (apply Fr, N').
    assert (Z1 : (exists x, In x (buf_items (d_plus s)) /\ rel_key rel x k') <-> exists x, (result op old new x /\ ~ In x old) /\ rel_key rel x k')
      by (split; intros (x & H1 & H2); exists x; (split; [apply Ep; exact H1|exact H2])).
    assert (Z2 : (exists x, In x (buf_items (d_minus s)) /\ rel_key rel x k') <-> exists x, (In x old /\ ~ result op old new x) /\ rel_key rel x k')
      by (split; intros (x & H1 & H2); exists x; (split; [apply Em; exact H1|exact H2])).
    rewrite Z1, Z2. reflexivity.
Qed.

(* items *)
Lemma members_in_ne a b : members_of a <> in_of b.
Proof.
  unfold members_of, in_of. intros E. change (B "#GMB") with (B "#GM" ++ B "B") in E. change (B "#GIN") with (B "#GI" ++ B "N") in E.
  rewrite !app_assoc in E. apply app_inj_tail in E as (_ & E). discriminate.
Qed.
Lemma in_inj a b : in_of a = in_of b -> a = b. Proof. apply app_inv_tail. Qed.
Lemma members_inj a b : members_of a = members_of b -> a = b. Proof. apply app_inv_tail. Qed.
Lemma item_lemma d0 d cur rel h op new a (R : bytes -> Prop) : let old := members d (members_of a) in
  plain cur -> compose_key_prefix cur = a -> store_key cur = members_of a ->
  (forall b, R b -> exists s, relative rel b = Some s /\ plain s /\ store_key s = in_of b) ->
  (forall x, In x old -> R x) -> (forall x, In x new -> R x) ->
  inv_all d0 d -> h_owner h = OWNER_CORE -> sorted new ->
  exists d', kv_delta_set d cur rel h op new = Ok (d', 0%Z) /\ inv_all d0 d'
   /\ (forall x, In x (members d' (members_of a)) <-> result op old new x)
   /\ (forall c y, c <> a -> main_key (members_of c) -> (In y (members d' (members_of c)) <-> In y (members d (members_of c))))
   /\ (forall b y, main_key (in_of b) -> (In y (members d' (in_of b)) <->
         (In y (members d (in_of b)) \/ (y = a /\ result op old new b /\ ~ In b old)) /\ ~ (y = a /\ In b old /\ ~ result op old new b))).
Proof.
  intros old P Ea Ek Hr Ro Rn I Ho Sn. pose proof (kv_lemma d0 d cur rel h op new) as K. cbn zeta in K. rewrite Ek in K. fold old in K.
  assert (Rk : forall x, R x -> forall k', rel_key rel x k' <-> k' = in_of x).
  { intros x H k'. destruct (Hr x H) as (s & E & _ & F). unfold rel_key. split; [intros (s' & E' & <-); congruence|intros ->; exists s; auto]. }
  destruct K as (d' & E' & I' & M' & F'); try assumption.
  { intros x Hx. destruct (Hr x ltac:(destruct Hx; auto)) as (s & E & Ps & F). exists s. split; [exact E|]. split; [exact Ps|]. rewrite F. intros Q. exact (members_in_ne a x (eq_sym Q)). }
  assert (RR : forall x, result op old new x -> R x) by (intros x Hx; destruct op; cbn [result] in Hx; intuition).
  exists d'. split; [exact E'|]. split; [exact I'|]. split; [exact M'|]. split.
  - intros c y Nc Mc. rewrite F'; [|exact Mc|intros Q; apply Nc, members_inj, Q]. split; [|intros H; split; [left; exact H|]].
    + intros ([H|(_ & x & (H1 & _) & H2)] & _); [exact H|]. apply (Rk x (RR _ H1)) in H2. destruct (members_in_ne _ _ H2).
    + intros (_ & x & (H1 & _) & H2). apply (Rk x (Ro _ H1)) in H2. destruct (members_in_ne _ _ H2).
  - intros b y Mb. rewrite F'; [|exact Mb|intros Q; exact (members_in_ne _ _ (eq_sym Q))]. rewrite Ea.
    assert (Z1 : (exists x, (result op old new x /\ ~ In x old) /\ rel_key rel x (in_of b)) <-> result op old new b /\ ~ In b old).
    { split; [intros (x & (H1 & H2) & H3); apply (Rk x (RR _ H1)) in H3; apply in_inj in H3; subst; auto|].
      intros (H1 & H2). exists b. split; [auto|]. apply (Rk b (RR _ H1)). reflexivity. }
    assert (Z2 : (exists x, (In x old /\ ~ result op old new x) /\ rel_key rel x (in_of b)) <-> In b old /\ ~ result op old new b).
    { split; [intros (x & (H1 & H2) & H3); apply (Rk x (Ro _ H1)) in H3; apply in_inj in H3; subst; auto|].
      intros (H1 & H2). exists b. split; [auto|]. apply (Rk b (Ro _ H1)). reflexivity. }
    rewrite Z1, Z2. reflexivity.
Qed.

Lemma store_prefix s : plain s -> store_key s = compose_key_prefix s ++ str (ks_core s).
Proof. intros P. rewrite (proj1 (store_plain s P)), prefix_joined. reflexivity. Qed.
Lemma dev_relative s uid : ks_ns s = NS_DEVICE -> no_colon uid -> relative s (dev_item uid) =
  Some (KeySpec (ks_extra s) (ks_op s) (ks_dom s) (ks_ns s) (Some uid) (ks_id_cat s) (ks_id s) (ks_core s)).
Proof.
  intros E N. unfold relative. rewrite E. unfold get_key_part, KEY_PART_NS_PART, KEY_PART_COUNT. cbn [Nat.eqb Nat.sub].
  change (skip_parts 3 (dev_item uid)) with (Some (uid ++ B ":::")). cbn [Nat.eqb]. change (B ":::") with (JOIN :: B "::"). rewrite index_join, first_join by exact N. reflexivity.
Qed.
Lemma dseq_relative id : no_colon id -> relative (dseq_spec None) (dseq_item id) = Some (dseq_spec (Some id)).
Proof.
  intros N. unfold relative. cbn [dseq_spec ks_ns]. unfold get_key_part, KEY_PART_ID, KEY_PART_COUNT. cbn [Nat.eqb Nat.sub].
  change (skip_parts 5 (dseq_item id)) with (Some (id ++ B ":")). cbn [Nat.eqb]. change (B ":") with (JOIN :: []). rewrite index_join, first_join by exact N. reflexivity.
Qed.
Lemma dev_prefix uid : compose_key_prefix (dev_spec uid) = dev_item uid. Proof. reflexivity. Qed.
Lemma dev_store uid : store_key (dev_spec uid) = in_of (dev_item uid).
Proof. rewrite store_prefix by (split; reflexivity). reflexivity. Qed.
Lemma dseq_prefix id : compose_key_prefix (dseq_spec (Some id)) = dseq_item id. Proof. reflexivity. Qed.
Lemma dseq_store id : store_key (dseq_spec (Some id)) = in_of (dseq_item id).
Proof. rewrite store_prefix by (split; reflexivity). reflexivity. Qed.
Lemma mem_prefix uid : compose_key_prefix (members_spec uid) = dev_item uid. Proof. reflexivity. Qed.
Lemma mem_store uid : store_key (members_spec uid) = members_of (dev_item uid).
Proof. rewrite store_prefix by (split; reflexivity). reflexivity. Qed.
Lemma gspec_prefix p dom ns cat id : dom = DOM_ALIAS \/ dom = DOM_GROUP ->
  group_item (compose_key_prefix (KeySpec None OP_SET (Some dom) ns p cat (Some id) (Some K_MEMBERS))).
Proof. intros [->| ->]; eexists; [left|right]; reflexivity. Qed.
Lemma gspec_store p dom ns cat id :
  store_key (KeySpec None OP_SET (Some dom) ns p cat (Some id) (Some K_MEMBERS)) = members_of (compose_key_prefix (KeySpec None OP_SET (Some dom) ns p cat (Some id) (Some K_MEMBERS))).
Proof. rewrite store_prefix by (split; reflexivity). reflexivity. Qed.
Lemma group_main g : group_item g -> main_key (members_of g) /\ main_key (in_of g).
Proof. intros (r & [->| ->]); split; reflexivity. Qed.
Lemma group_dev g uid : group_item g -> g <> dev_item uid. Proof. intros (r & [->| ->]); discriminate. Qed.
Lemma dev_dseq uid id : dev_item uid <> dseq_item id. Proof. discriminate. Qed.
Lemma dev_inj a b : dev_item a = dev_item b -> a = b.
Proof. unfold dev_item. intros E. apply app_inv_head in E. apply app_inv_tail in E. exact E. Qed.
Lemma dseq_inj a b : dseq_item a = dseq_item b -> a = b.
Proof. unfold dseq_item. intros E. apply app_inv_head in E. apply app_inv_tail in E. exact E. Qed.
Lemma result_dec op old new x : result op old new x \/ ~ result op old new x.
Proof. destruct (bytes_dec x old), (bytes_dec x new), op; cbn [result]; tauto. Qed.

Definition is_dev (x : bytes) : Prop := exists uid, no_colon uid /\ x = dev_item uid.
Definition is_dseq (x : bytes) : Prop := exists id, no_colon id /\ x = dseq_item id.
Definition step_ok (d0 d d' : db) : Prop := inv_all d0 d' /\ well_formed d' /\ (symmetric d -> symmetric d').

Lemma group_lemma d0 d cur rel h op new : let g := compose_key_prefix cur in
  plain cur -> ks_core cur = Some K_MEMBERS -> group_item g -> ks_ns rel = NS_DEVICE ->
  rel = KeySpec None OP_SET None NS_DEVICE (ks_ns_part rel) None None (Some K_IN) ->
  (forall x, In x new -> is_dev x) -> sorted new -> h_owner h = OWNER_CORE -> inv_all d0 d -> well_formed d ->
  exists d', kv_delta_set d cur rel h op new = Ok (d', 0%Z) /\ step_ok d0 d d'
   /\ (forall x, In x (members d' (members_of g)) <-> result op (members d (members_of g)) new x)
   /\ (forall c y, c <> g -> main_key (members_of c) -> (In y (members d' (members_of c)) <-> In y (members d (members_of c)))).
Proof.
  intros g P Ec Gi En Er Hn Sn Ho I W. set (old := members d (members_of g)).
  assert (Ek : store_key cur = members_of g) by (rewrite (store_prefix _ P), Ec; reflexivity).
  assert (Ro : forall x, In x old -> is_dev x) by (intros x Hx; destruct W as (_ & W & _); exact (W g x Gi Hx)).
  destruct (item_lemma d0 d cur rel h op new g is_dev) as (d' & E & I' & M & F & N); try assumption; [reflexivity| |].
  { intros b (uid & Nu & ->). exists (dev_spec uid). split; [rewrite (dev_relative rel uid En Nu), Er; reflexivity|]. split; [split; reflexivity|apply dev_store]. }
  fold old in M, N.
  exists d'. split; [exact E|]. split; [|split; [exact M|exact F]]. split; [exact I'|]. split.
  - split; [intros k Hk; apply (I' k Hk)|]. split.
    + intros g' x Gi' Hx. destruct (list_eq_dec ascii_dec g' g) as [->|Ng].
      * apply M in Hx. destruct op; cbn [result] in Hx; [apply Hn, Hx|destruct Hx as [Hx|Hx]; [exact (Ro _ Hx)|exact (Hn _ Hx)]|apply Ro, Hx].
      * apply (F g' x Ng (proj1 (group_main _ Gi'))) in Hx. destruct W as (_ & W & _). exact (W g' x Gi' Hx).
    + intros uid x Nu Hx. apply F in Hx; [|intros Q; exact (group_dev _ _ Gi (eq_sym Q))|reflexivity]. destruct W as (_ & _ & W). exact (W uid x Nu Hx).
  - intros (S1 & S2). split.
    + intros g' uid Gi' Nu. rewrite N by reflexivity. destruct (list_eq_dec ascii_dec g' g) as [->|Ng].
      * rewrite M, <- (S1 g uid Gi Nu). fold old. destruct (bytes_dec (dev_item uid) old), (result_dec op old new (dev_item uid)); tauto.
      * rewrite F by (exact Ng || apply group_main, Gi'). rewrite (S1 g' uid Gi' Nu). tauto.
    + intros uid id Nu Ni. rewrite F; [|intros Q; exact (group_dev _ _ Gi (eq_sym Q))|reflexivity]. rewrite N by reflexivity.
      rewrite (S2 uid id Nu Ni). pose proof (fun Q : g = dev_item uid => group_dev _ _ Gi Q) as NQ.
      split; [intros H; split; [left; exact H|intros (Q & _); apply NQ; auto]|intros ([H|(Q & _)] & _); [exact H|destruct NQ; auto]].
Qed.

Lemma deps_lemma d0 d uid h new : no_colon uid -> (forall x, In x new -> is_dseq x) -> sorted new -> h_owner h = OWNER_CORE -> inv_all d0 d -> well_formed d ->
  exists d', kv_delta_set d (members_spec uid) (dseq_spec None) h OP_SET new = Ok (d', 0%Z) /\ step_ok d0 d d'
    /\ (forall x, In x (members d' (members_of (dev_item uid))) <-> In x new).
Proof.
  intros Nu Hn Sn Ho I W. set (old := members d (members_of (dev_item uid))).
  assert (Ro : forall x, In x old -> is_dseq x) by (intros x Hx; destruct W as (_ & _ & W); exact (W uid x Nu Hx)).
  destruct (item_lemma d0 d (members_spec uid) (dseq_spec None) h OP_SET new (dev_item uid) is_dseq) as (d' & E & I' & M & F & N);
    try assumption; [split; reflexivity|reflexivity|apply mem_store| |].
  { intros b (id & Ni & ->). exists (dseq_spec (Some id)). split; [apply dseq_relative, Ni|]. split; [split; reflexivity|apply dseq_store]. }
  fold old in M, N. cbn [result] in M, N.
  exists d'. split; [exact E|]. split; [|exact M]. split; [exact I'|]. split.
  - split; [intros k Hk; apply (I' k Hk)|]. split.
    + intros g x Gi Hx. apply F in Hx; [|apply group_dev, Gi|apply group_main, Gi]. destruct W as (_ & W & _). exact (W g x Gi Hx).
    + intros uid' x Nu' Hx. destruct (list_eq_dec ascii_dec uid' uid) as [->|Ne].
      * apply M in Hx. apply Hn, Hx.
      * apply F in Hx; [|intros Q; apply Ne, dev_inj, Q|reflexivity]. destruct W as (_ & _ & W). exact (W uid' x Nu' Hx).
  - intros (S1 & S2). split.
    + intros g uid' Gi Nu'. rewrite F by (apply group_dev, Gi || apply group_main, Gi). rewrite (S1 g uid' Gi Nu'). rewrite N by reflexivity.
      pose proof (group_dev g uid Gi) as NQ. tauto.
    + intros uid' id Nu' Ni. rewrite N by reflexivity. destruct (list_eq_dec ascii_dec uid' uid) as [->|Ne].
      * rewrite M, <- (S2 uid id Nu Ni). fold old. destruct (bytes_dec (dseq_item id) old), (bytes_dec (dseq_item id) new); tauto.
      * assert (NQ : dev_item uid' <> dev_item uid) by (intros Q; apply Ne, dev_inj, Q). rewrite F by (exact NQ || reflexivity). rewrite (S2 uid' id Nu' Ni). tauto.
Qed.

Lemma create_lemma d0 d u owner dom ns fl cat id : inv_all d0 d -> well_formed d ->
  step_ok d0 d (fst (group_create d u owner dom ns fl cat id)) /\ forall k, members (fst (group_create d u owner dom ns fl cat id)) k = members d k.
Proof.
  intros I W. unfold group_create. set (s := group_spec_ns u owner dom ns cat id). change (canonicalize_key (compose_key s)) with (store_key s).
  assert (P : plain s) by (split; reflexivity). destruct (store_plain s P) as (_ & Mk & _ & _).
  unfold kvs_set. change (canonicalize_key (compose_key s)) with (store_key s). set (k := store_key s) in *.
  assert (G : forall d', (forall x, members d' x = members d x) -> (forall x, x <> k -> same_at d d' x) -> step_ok d0 d d' /\ forall k, members d' k = members d k).
  { intros d' M F. split; [|exact M]. split; [|split].
    - intros k' M'. unfold inv_at. rewrite !M. destruct (I k' M') as (I1 & I2 & I3 & I4 & I5 & I6 & I7).
      repeat (split; [assumption|]). split; (eapply dkey_same; [apply F|eassumption]); intros E; rewrite <- E in Mk; discriminate Mk.
    - unfold well_formed. destruct W as (W1 & W2 & W3). split; [intros k' Hk'; rewrite M; auto|]. split; [intros g x; rewrite M; apply W2|intros uid x; rewrite M; apply W3].
    - unfold symmetric. intros (S1 & S2). split; intros; rewrite !M; auto. }
  destruct (recs d k) as [r|] eqn:R; cbn [cb_write_new_only].
  - apply G; [reflexivity|]. intros; split; reflexivity.
  - unfold cb_write. cbn [check_kv_wr_allowed Z.ltb Z.compare].
    assert (Gm : forall c x, recs (manage_kv_index (Db (put (recs d) k (Some (Rec (u_seq u) fl (u_gen u) owner []))) (indexed d)) c k) x
       = put (recs d) k (Some (Rec (u_seq u) fl (u_gen u) owner [])) x).
    { intros c x. unfold manage_kv_index. destruct (c =? KV_INDEX_ADD)%Z, (c =? KV_INDEX_REMOVE)%Z; reflexivity. }
    cbn [fst]. apply G.
    + intros x. unfold members. rewrite Gm. destruct (list_eq_dec ascii_dec x k) as [->|N]; [rewrite put_same, R; reflexivity|rewrite put_other by exact N; reflexivity].
    + intros x N. split; [rewrite Gm; apply put_other, N|]. unfold manage_kv_index. repeat match goal with |- context [if ?b then _ else _] => destruct b end; cbn [indexed]; try reflexivity; apply mark_other, N.
Qed.

Lemma uid_lemma u owner : get_ns_part (u_dev u) owner NS_DEVICE = str (uid_s (u_dev u)). Proof. apply or_str. Qed.
Lemma handle_lemma d0 d u owner vdevs dom ns cat id op : dom = DOM_ALIAS \/ dom = DOM_GROUP -> good_dev u ->
  (forall l, vdevs = Some l -> sorted l /\ forall x, In x l -> is_dev x) -> inv_all d0 d -> well_formed d ->
  let g := compose_key_prefix (group_spec owner dom ns cat id) in
  exists d', handle_devs_for_group d u owner vdevs dom ns cat id op = Ok (d', 0%Z) /\ step_ok d0 d d'
    /\ (forall x, In x (members d' (members_of g)) <-> result op (members d (members_of g)) (match vdevs with Some l => l | None => [this_dev u] end) x)
    /\ (forall c y, c <> g -> main_key (members_of c) -> (In y (members d' (members_of c)) <-> In y (members d (members_of c)))).
Proof.
  intros Hd Gu Hv I W g. unfold handle_devs_for_group. rewrite uid_lemma, dev_prefix. fold (this_dev u).
  apply group_lemma; try assumption; try reflexivity; try (split; reflexivity).
  - apply gspec_prefix, Hd.
  - intros x. destruct vdevs as [l|]; [apply (Hv l eq_refl)|]. intros [<-|[]]. exists (str (uid_s (u_dev u))). split; [apply opt_str, Gu|reflexivity].
  - destruct vdevs as [l|]; [apply (Hv l eq_refl)|apply sorted_one].
Qed.
Lemma destroy_lemma d0 d u owner dom ns cat id force dfl : dom = DOM_ALIAS \/ dom = DOM_GROUP -> inv_all d0 d -> well_formed d ->
  let g := compose_key_prefix (group_spec_ns u owner dom ns cat id) in
  exists d' r, group_destroy d u owner dom ns cat id force dfl = Ok (d', r) /\ step_ok d0 d d'
    /\ (forall c y, c <> g -> main_key (members_of c) -> (In y (members d' (members_of c)) <-> In y (members d (members_of c))))
    /\ (force = true -> forall x, ~ In x (members d' (members_of g)))
    /\ (force = false -> members d (members_of g) <> [] -> d' = d /\ r = (- ENOTEMPTY)%Z).
Proof.
  intros Hd I W g. unfold group_destroy. assert (Ek : store_key (group_spec_ns u owner dom ns cat id) = members_of g) by apply gspec_store.
  rewrite Ek. destruct (data_at d (members_of g)) as [l|] eqn:Dl.
  - assert (Ml : members d (members_of g) = l) by (rewrite <- members_data, Dl; reflexivity).
    destruct (negb (length l =? 0) && negb force) eqn:C.
    + exists d, (- ENOTEMPTY)%Z. split; [reflexivity|]. split; [split; [exact I|split; [exact W|auto]]|]. split; [tauto|]. split; [|auto].
      intros ->. rewrite andb_false_r in C. discriminate.
    + destruct (group_lemma d0 d (group_spec_ns u owner dom ns cat id) (KeySpec None OP_SET None NS_DEVICE None None None (Some K_IN)) (core_hdr u dfl) OP_SET [])
        as (d' & E & S & M & F); try assumption; try reflexivity; try (split; reflexivity); try constructor.
      { apply gspec_prefix, Hd. } { intros x []. }
      exists d', 0%Z. split; [exact E|]. split; [exact S|]. split; [exact F|]. split.
      * intros _ x Hx. apply M in Hx. exact Hx.
      * intros -> Nl. rewrite Ml in Nl. destruct l; [contradiction|discriminate C].
  - assert (Ml : members d (members_of g) = []) by (rewrite <- members_data, Dl; reflexivity).
    exists d, (-1)%Z. split; [reflexivity|]. split; [split; [exact I|split; [exact W|auto]]|]. split; [tauto|]. rewrite Ml. split; [auto|]. intros _ N. destruct N. reflexivity.
Qed.

Lemma ok_refl d0 d : inv_all d0 d -> well_formed d -> step_ok d0 d d.
Proof. intros I W. split; [exact I|]. split; [exact W|auto]. Qed.
Lemma ok_trans d0 d d' d'' : step_ok d0 d d' -> step_ok d0 d' d'' -> step_ok d0 d d''.
Proof. intros (_ & _ & S) (I & W & S'). split; [exact I|]. split; [exact W|auto]. Qed.
Lemma get_members d owner k l fl : fst (cmd_get_key_value d owner k) = Some (l, fl) -> members d (canonicalize_key k) = l.
Proof.
  unfold cmd_get_key_value, members. destruct (recs d (canonicalize_key k)) as [r|]; [|discriminate]. destruct (match mod_match _ _ with MOD_NO_MATCH => _ | _ => _ end); [|discriminate].
  destruct (r_data r) as [|x t] eqn:E; [discriminate|]. cbn. intros H. injection H as <- _. reflexivity.
Qed.
Lemma alias_prefix owner cat id : compose_key_prefix (group_spec owner DOM_ALIAS NS_MODULE cat id) = alias_item owner cat id.
Proof. reflexivity. Qed.
Lemma gstep_lemma d0 d o : inv_all d0 d -> well_formed d -> good_op o -> exists d' r, gstep d o = Ok (d', r) /\ step_ok d0 d d'.
Proof.
  intros I W G. destruct o as [u owner cat id|u owner cat id|u owner cat old new dfl|u owner ns fl cat id|u owner ns cat id|u owner ns cat id|u owner ns cat id fc dfl|u dq]; cbn [gstep good_op] in *.
  1,2,5,6: match goal with |- context [if ?b then _ else _] => destruct b end; [exists d, (- EINVAL)%Z; split; [reflexivity|apply ok_refl; assumption]|].
  1-4: edestruct (handle_lemma d0 d u owner None) as (d' & E & S & _); [| |discriminate 1|exact I|exact W|exists d', 0%Z; split; [exact E|exact S]]; auto.
  - destruct (empty cat || empty old || empty new); [exists d, (- EINVAL)%Z; split; [reflexivity|apply ok_refl; assumption]|].
    destruct (cmd_get_key_value _ _ _) as ([(l, fl)|] & r) eqn:Eg; [|exists d, r; split; [reflexivity|apply ok_refl; assumption]].
    pose proof (get_members d owner (compose_key (group_spec owner DOM_ALIAS NS_MODULE cat old)) l fl) as Ml. rewrite Eg in Ml. specialize (Ml eq_refl).
    change (canonicalize_key (compose_key (group_spec owner DOM_ALIAS NS_MODULE cat old))) with (store_key (group_spec owner DOM_ALIAS NS_MODULE cat old)) in Ml.
    assert (Hl : sorted l /\ forall x, In x l -> is_dev x).
    { assert (Ek : store_key (group_spec owner DOM_ALIAS NS_MODULE cat old) = members_of (alias_item owner cat old)) by (rewrite <- alias_prefix; apply gspec_store).
      rewrite Ek in Ml. destruct W as (W1 & W2 & _).
      assert (Gi : group_item (alias_item owner cat old)) by (rewrite <- alias_prefix; apply gspec_prefix; left; reflexivity).
      rewrite <- Ml. split; [apply W1, group_main, Gi|]. intros x Hx. exact (W2 _ x Gi Hx). }
    destruct (handle_lemma d0 d u owner (Some l) DOM_ALIAS NS_MODULE cat new OP_PLUS) as (d1 & -> & S1 & _); [auto|exact G|intros l' E; injection E as <-; exact Hl|exact I|exact W|].
    cbn [obind Z.ltb Z.compare].
    destruct (destroy_lemma d0 d1 u owner DOM_ALIAS NS_MODULE (Some cat) old true dfl) as (d2 & r2 & E2 & S2 & _); [auto|apply S1|apply S1|].
    exists d2, r2. split; [exact E2|]. eapply ok_trans; eassumption.
  - destruct (ns_eqb ns NS_UNDEFINED || empty id); [exists d, (- EINVAL)%Z; split; [reflexivity|apply ok_refl; assumption]|].
    destruct (group_create d u owner DOM_GROUP ns (N.ldiff fl FL_ALIGN) cat id) as (d', r) eqn:E. exists d', r. split; [reflexivity|].
    change d' with (fst (d', r)). rewrite <- E. apply create_lemma; assumption.
  - destruct (ns_eqb ns NS_UNDEFINED || empty id); [exists d, (- EINVAL)%Z; split; [reflexivity|apply ok_refl; assumption]|].
    destruct (destroy_lemma d0 d u owner DOM_GROUP ns cat id fc dfl) as (d2 & r2 & E2 & S2 & _); [auto|exact I|exact W|]. exists d2, r2. auto.
  - destruct G as (G & Nd & Nc). unfold update_deps. rewrite uid_lemma.
    destruct (deps_lemma d0 d (str (uid_s (u_dev u))) (core_hdr u FLAGS_NO_SYNC) (qsort (map (fun s => compose_key_prefix (dseq_spec (Some s))) dq))) as (d' & E & S & _);
      try assumption; [apply opt_str, G| | |reflexivity|].
    + intros x Hx. apply qsort_in, in_map_iff in Hx as (s & <- & Hs). exists s. split; [apply Nc, Hs|apply dseq_prefix].
    + apply qsort_sorted. clear -Nd. induction dq as [|x l IH]; [constructor|]. inversion Nd; subst. cbn [map]. constructor; [|apply IH; assumption].
      intros H. apply in_map_iff in H as (s & E & Hs). rewrite !dseq_prefix in E. apply dseq_inj in E. subst. contradiction.
    + exists d', 0%Z. auto.
Qed.
Lemma gsteps_lemma d0 l : forall d, inv_all d0 d -> well_formed d -> Forall good_op l -> exists d', gsteps d l = Ok d' /\ step_ok d0 d d'.
Proof.
  induction l as [|o l IH]; intros d I W F; cbn [gsteps]; [exists d; split; [reflexivity|apply ok_refl; assumption]|].
  inversion F; subst. destruct (gstep_lemma d0 d o I W) as (d1 & r & -> & S1); [assumption|]. cbn [obind].
  destruct (IH d1) as (d2 & -> & S2); [apply S1|apply S1|assumption|]. exists d2. split; [reflexivity|]. eapply ok_trans; eassumption.
Qed.
Lemma fresh_inv d : well_formed d -> fresh d -> inv_all d d.
Proof.
  intros (W & _) F k Mk. destruct (F k PL Mk (or_introl eq_refl)) as (F1 & F2). destruct (F k MI Mk (or_intror (or_introl eq_refl))) as (F3 & F4).
  unfold inv_at, dkey_ok, members at 2 3 4 7. rewrite F1, F3. repeat split; try assumption; try constructor; try apply W, Mk; cbn; try tauto.
  all: unfold members; intros; try (rewrite ?F1, ?F3 in *); cbn in *; tauto.
Qed.
Lemma inv_exact d0 d k : inv_at d0 d k -> delta_exact d0 d k.
Proof.
  intros (I1 & I2 & I3 & I4 & I5 & I6 & I7). unfold delta_exact. repeat (split; [assumption|]).
  intros c [<-|[<-|[]]]; unfold dkey_ok, members in *; [clear I7|clear I6]; [change "+"%char with PL|change "-"%char with MI];
    match goal with |- context [recs d ?k] => destruct (recs d k) end; intuition congruence.
Qed.
Lemma delta_history d0 l : well_formed d0 -> fresh d0 -> Forall good_op l ->
  exists d, gsteps d0 l = Ok d /\ well_formed d /\ (forall k, main_key k -> delta_exact d0 d k) /\ (symmetric d0 -> symmetric d).
Proof.
  intros W F G. destruct (gsteps_lemma d0 l d0 (fresh_inv d0 W F) W G) as (d & E & I & W' & S).
  exists d. split; [exact E|]. split; [exact W'|]. split; [|exact S]. intros k Mk. apply inv_exact, I, Mk.
Qed.

Lemma step_theorem op old new : sorted (opt_list old) -> sorted new ->
  exists s f, delta_step_calc op old new = DOk s /\ d_final s = Some f /\ length (items f) <= room f
    /\ (forall b, d_plus s = Some b -> length (items b) <= room b) /\ (forall b, d_minus s = Some b -> length (items b) <= room b)
    /\ sorted (items f) /\ sorted (buf_items (d_plus s)) /\ sorted (buf_items (d_minus s))
    /\ (forall x, In x (items f) <-> result op (opt_list old) new x)
    /\ (forall x, In x (buf_items (d_plus s)) <-> In x (items f) /\ ~ In x (opt_list old))
    /\ (forall x, In x (buf_items (d_minus s)) <-> In x (opt_list old) /\ ~ In x (items f)).
Proof.
  intros So Sn. destruct (step_lemma op old new So Sn) as (p & m & r & f & E & (X1 & X2 & X3 & X4 & X5 & X6) & L & _ & _ & L1 & L2).
  exists (Delta p m (Some (Dbuf r f))), (Dbuf r f). cbn [d_plus d_minus d_final items room].
  repeat (split; [first [assumption|reflexivity]|]). split; [|]; intros x; [rewrite X5|rewrite X6]; rewrite X4; reflexivity.
Qed.
Lemma history_ok d0 l d : well_formed d0 -> fresh d0 -> Forall good_op l -> gsteps d0 l = Ok d -> inv_all d0 d /\ well_formed d.
Proof.
  intros W F G E. destruct (gsteps_lemma d0 l d0 (fresh_inv d0 W F) W G) as (d' & E' & I & W' & _).
  rewrite E in E'. assert (d' = d) as -> by (apply (f_equal (fun o => match o with Ok x => x | UB => d' end)) in E'; cbn in E'; congruence). auto.
Qed.
Lemma group_part owner ns cat id : compose_key_prefix (group_spec owner DOM_GROUP ns cat id) = group_item_of ns owner cat id.
Proof. unfold group_item_of. rewrite <- ns_txt. reflexivity. Qed.
Definition edit_op (add : bool) : kv_op := if add then OP_PLUS else OP_MINUS.
Lemma not_empty (s : bytes) : s <> [] -> empty s = false. Proof. destruct s; [contradiction|reflexivity]. Qed.
Lemma alias_edit_lemma d0 l d u owner cat id (add : bool) : well_formed d0 -> fresh d0 -> Forall good_op l -> gsteps d0 l = Ok d ->
  good_dev u -> cat <> [] -> id <> [] ->
  exists d', gstep d (if add then AliasAdd u owner cat id else AliasDel u owner cat id) = Ok (d', 0%Z)
   /\ (forall x, In x (members d' (members_of (alias_item owner cat id))) <->
         if add then In x (members d (members_of (alias_item owner cat id))) \/ x = this_dev u
         else In x (members d (members_of (alias_item owner cat id))) /\ x <> this_dev u)
   /\ (forall g x, group_item g -> g <> alias_item owner cat id -> (In x (members d' (members_of g)) <-> In x (members d (members_of g)))).
Proof.
  intros W F G E Gu Nc Ni. destruct (history_ok _ _ _ W F G E) as (I & W').
  destruct (handle_lemma d0 d u owner None DOM_ALIAS NS_MODULE cat id (edit_op add)) as (d' & E' & S & M & Fr); [auto|exact Gu|discriminate|exact I|exact W'|].
  rewrite alias_prefix in M, Fr. exists d'. split; [|split].
  - destruct add; cbn [gstep]; rewrite (not_empty cat Nc), (not_empty id Ni); exact E'.
  - intros x. rewrite M. destruct add; cbn [edit_op result In]; intuition congruence.
  - intros g x Gi Ng. apply Fr; [exact Ng|apply group_main, Gi].
Qed.
Lemma group_edit_lemma d0 l d u owner ns cat id (add : bool) : well_formed d0 -> fresh d0 -> Forall good_op l -> gsteps d0 l = Ok d ->
  good_dev u -> ns <> NS_UNDEFINED -> cat <> [] -> id <> [] ->
  exists d', gstep d (if add then GrpAdd u owner ns cat id else GrpDel u owner ns cat id) = Ok (d', 0%Z)
   /\ (forall x, In x (members d' (members_of (group_item_of ns owner cat id))) <->
         if add then In x (members d (members_of (group_item_of ns owner cat id))) \/ x = this_dev u
         else In x (members d (members_of (group_item_of ns owner cat id))) /\ x <> this_dev u)
   /\ (forall g x, group_item g -> g <> group_item_of ns owner cat id -> (In x (members d' (members_of g)) <-> In x (members d (members_of g)))).
Proof.
  intros W F G E Gu Nn Nc Ni. destruct (history_ok _ _ _ W F G E) as (I & W').
  destruct (handle_lemma d0 d u owner None DOM_GROUP ns cat id (edit_op add)) as (d' & E' & S & M & Fr); [auto|exact Gu|discriminate|exact I|exact W'|].
  rewrite group_part in M, Fr. assert (En : ns_eqb ns NS_UNDEFINED = false) by (destruct ns; [contradiction|reflexivity..]). exists d'. split; [|split].
  - destruct add; cbn [gstep]; rewrite En, (not_empty cat Nc), (not_empty id Ni); exact E'.
  - intros x. rewrite M. destruct add; cbn [edit_op result In]; intuition congruence.
  - intros g x Gi Ng. apply Fr; [exact Ng|apply group_main, Gi].
Qed.
Lemma destroy_theorem d0 l d u owner ns cat id force dfl : well_formed d0 -> fresh d0 -> Forall good_op l -> gsteps d0 l = Ok d ->
  good_dev u -> ns <> NS_UNDEFINED -> id <> [] ->
  let g := group_item_of ns (match scope (u_dev u) owner ns with p :: _ => p | [] => [] end) (str cat) id in
  exists d' r, gstep d (GrpDestroy u owner ns cat id force dfl) = Ok (d', r)
   /\ (force = true -> forall x, ~ In x (members d' (members_of g)))
   /\ (force = false -> members d (members_of g) <> [] -> d' = d /\ r = (- ENOTEMPTY)%Z)
   /\ (forall g' x, group_item g' -> g' <> g -> (In x (members d' (members_of g')) <-> In x (members d (members_of g')))).
Proof.
  intros W F G E Gu Nn Ni g. destruct (history_ok _ _ _ W F G E) as (I & W').
  destruct (destroy_lemma d0 d u owner DOM_GROUP ns cat id force dfl) as (d' & r & E' & S & Fr & H1 & H2); [auto|exact I|exact W'|].
  assert (Eg : compose_key_prefix (group_spec_ns u owner DOM_GROUP ns cat id) = g).
  { clear -Nn. unfold g. destruct u as [[nm ui] sq gn]. destruct ns; [contradiction|..]; destruct cat, nm, ui; reflexivity. }
  rewrite Eg in *. assert (En : ns_eqb ns NS_UNDEFINED = false) by (destruct ns; [contradiction|reflexivity..]).
  exists d', r. split; [cbn [gstep]; rewrite En, (not_empty id Ni); exact E'|]. split; [exact H1|]. split; [exact H2|].
  intros g' x Gi Ng. apply Fr; [exact Ng|apply group_main, Gi].
Qed.
Lemma readable_get d owner k r : recs d (canonicalize_key k) = Some r -> N.land (r_flags r) FL_RD = FL_RD -> r_data r <> [] ->
  fst (cmd_get_key_value d owner k) = Some (r_data r, r_flags r).
Proof.
  intros R Fl Nd. unfold cmd_get_key_value. rewrite R.
  assert (H : has (r_flags r) FL_FRG_RD = true /\ has (r_flags r) FL_SUB_RD = true /\ has (r_flags r) FL_SUP_RD = true).
  { repeat split; unfold has; match goal with |- context [N.land _ ?b] => assert (N.land (r_flags r) b = b) as ->; [|reflexivity] end.
    all: match goal with |- N.land _ ?b = _ => replace b with (N.land FL_RD b) at 1 by reflexivity; rewrite N.land_assoc, Fl; reflexivity end. }
  destruct H as (-> & -> & ->). destruct (mod_match (r_owner r) owner); destruct (r_data r); try contradiction; reflexivity.
Qed.
Lemma rename_lemma d0 l d u owner cat old new dfl r : well_formed d0 -> fresh d0 -> Forall good_op l -> gsteps d0 l = Ok d ->
  good_dev u -> cat <> [] -> old <> [] -> new <> [] ->
  recs d (members_of (alias_item owner cat old)) = Some r -> N.land (r_flags r) FL_RD = FL_RD -> r_data r <> [] ->
  exists d' c, gstep d (AliasRename u owner cat old new dfl) = Ok (d', c)
   /\ (forall x, ~ In x (members d' (members_of (alias_item owner cat old))))
   /\ (old <> new -> forall x, In x (members d' (members_of (alias_item owner cat new))) <->
         In x (members d (members_of (alias_item owner cat new))) \/ In x (members d (members_of (alias_item owner cat old)))).
Proof.
  intros W F G E Gu Nc No Nn R Fl Nd. destruct (history_ok _ _ _ W F G E) as (I & W').
  assert (Ek : store_key (group_spec owner DOM_ALIAS NS_MODULE cat old) = members_of (alias_item owner cat old)) by (rewrite <- alias_prefix; apply gspec_store).
  assert (Gi : group_item (alias_item owner cat old)) by (rewrite <- alias_prefix; apply gspec_prefix; left; reflexivity).
  assert (Ml : members d (members_of (alias_item owner cat old)) = r_data r) by (unfold members; rewrite R; reflexivity).
  cbn [gstep]. rewrite (not_empty cat Nc), (not_empty old No), (not_empty new Nn). cbn [orb].
  pose proof (readable_get d owner (compose_key (group_spec owner DOM_ALIAS NS_MODULE cat old)) r) as Eg.
  change (canonicalize_key (compose_key (group_spec owner DOM_ALIAS NS_MODULE cat old))) with (store_key (group_spec owner DOM_ALIAS NS_MODULE cat old)) in Eg.
  rewrite Ek in Eg. specialize (Eg R Fl Nd). destruct (cmd_get_key_value _ _ _) as (v & c). cbn [fst] in Eg. subst v.
  destruct (handle_lemma d0 d u owner (Some (r_data r)) DOM_ALIAS NS_MODULE cat new OP_PLUS) as (d1 & -> & S1 & M1 & F1); [auto|exact Gu| |exact I|exact W'|].
  { intros l' E'. injection E' as <-. rewrite <- Ml. destruct W' as (W1 & W2 & _). split; [apply W1, group_main, Gi|]. intros x Hx. exact (W2 _ x Gi Hx). }
  cbn [obind Z.ltb Z.compare].
  destruct (destroy_lemma d0 d1 u owner DOM_ALIAS NS_MODULE (Some cat) old true dfl) as (d2 & r2 & E2 & S2 & F2 & H2 & _); [auto|apply S1|apply S1|].
  change (compose_key_prefix (group_spec_ns u owner DOM_ALIAS NS_MODULE (Some cat) old)) with (alias_item owner cat old) in *. rewrite alias_prefix in M1, F1.
  exists d2, r2. split; [exact E2|]. split; [apply H2; reflexivity|]. intros Ne x.
  assert (Na : alias_item owner cat new <> alias_item owner cat old).
  { unfold alias_item. intros Q. repeat (apply app_inv_head in Q). apply app_inv_tail in Q. congruence. }
  rewrite F2; [|exact Na|reflexivity]. rewrite M1. cbn [result]. rewrite Ml. reflexivity.
Qed.
Lemma exact_parts d0 d k : delta_exact d0 d k ->
  (forall x, In x (members d k) <-> (In x (members d0 k) /\ ~ In x (members d ("-"%char :: k))) \/ In x (members d ("+"%char :: k)))
  /\ (forall x, ~ (In x (members d ("+"%char :: k)) /\ In x (members d ("-"%char :: k)))).
Proof.
  intros (_ & _ & _ & P & M & _). split; intros x; rewrite P, M; [|tauto]. destruct (bytes_dec x (members d k)), (bytes_dec x (members d0 k)); tauto.
Qed.
Lemma symmetric_history d0 l d : well_formed d0 -> fresh d0 -> symmetric d0 -> Forall good_op l -> gsteps d0 l = Ok d -> symmetric d.
Proof.
  intros W F S G E. destruct (delta_history d0 l W F G) as (d' & E' & _ & _ & S'). rewrite E in E'.
  assert (d' = d) as <- by (apply (f_equal (fun o => match o with Ok x => x | UB => d' end)) in E'; cbn in E'; congruence). auto.
Qed.
