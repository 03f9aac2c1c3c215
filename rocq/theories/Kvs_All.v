(* The key-value store lemmas put together for the property theorems. *)
From Verif Require Import Base Hash_Model Bptree_Model Bptree_Spec Kvs_Model Kvs_Spec Kvs_Proofs Kvs_Trans Kvs_Commit Kvs_Rollback Kvs_Backend.
Local Open Scope N_scope.

Lemma history_no_alias segs : Forall seg_ok segs -> Forall no_alias_op (history segs).
Proof.
  assert (D : forall ops, Forall data_op ops -> Forall no_alias_op ops) by (intros ops F; eapply Forall_impl; [|exact F]; intros [] ; cbn; auto).
  induction 1 as [|sg segs H _ IH]; [constructor|]. cbn [history flat_map]. apply Forall_app. split; [|exact IH].
  destruct sg as [o|ops [|]]; cbn [calls seg_ok] in *.
  - apply D. repeat constructor. exact H.
  - constructor; [exact Logic.I|]. apply Forall_app. split; [apply D, H|repeat constructor].
  - constructor; [exact Logic.I|]. apply Forall_app. split; [apply D, H|repeat constructor].
Qed.

Definition same_as (ops : list kop) (P : list kres -> (bytes -> outcome (option content * Z)) -> Prop) : Prop :=
  exists s rs, krun spec_backend kempty ops = Ok (s, rs) /\ P rs (sid_kvs_get spec_backend s).
Definition ext (P : list kres -> (bytes -> outcome (option content * Z)) -> Prop) : Prop :=
  forall rs f g, (forall k, f k = g k) -> P rs f -> P rs g.

Lemma get_rel BE (R : bst BE -> list grp -> Prop) s (t : skv) : (forall b gs k, R b gs -> blook BE b k = Ok (option_map out (glookup k gs))) ->
  KR BE R s t -> forall k, sid_kvs_get spec_backend t k = sid_kvs_get BE s k.
Proof.
  intros L H k. unfold sid_kvs_get. destruct k; [reflexivity|]. rewrite (L _ _ _ (proj1 H)). destruct H as (_ & -> & _). reflexivity.
Qed.
Lemma to_hash hint ops P : hint <= 2 ^ 31 -> Forall no_alias_op ops -> ext P -> same_as ops P -> on_hash hint ops P.
Proof.
  intros H A X (s & rs & E & HP). destruct (hash_start hint H) as (t & Et & K).
  pose proof (krun_rel hash_backend RH RH_look RH_upd ops A _ _ K) as O. rewrite E in O.
  change (hkempty t) with (Build_kv hash_backend t [] None None) in O.
  destruct (krun hash_backend (Build_kv hash_backend t [] None None) ops) as [[s1 rs1]|] eqn:E1; [|contradiction]. destruct O as [K1 Er]. cbn [fst snd] in *. subst.
  exists t, s1, rs. split; [exact Et|]. split; [exact E1|]. eapply X; [|exact HP]. apply (get_rel hash_backend RH _ _ RH_look K1).
Qed.
Lemma to_bptree o ops P : (4 <= o)%nat -> Forall no_alias_op ops -> ext P -> same_as ops P -> on_bptree o ops P.
Proof.
  intros H A X (s & rs & E & HP). destruct (bptree_start o H) as (t & Et & K).
  pose proof (krun_rel bptree_backend RB RB_look RB_upd ops A _ _ K) as O. rewrite E in O.
  change (bkempty t) with (Build_kv bptree_backend t [] None None) in O.
  destruct (krun bptree_backend (Build_kv bptree_backend t [] None None) ops) as [[s1 rs1]|] eqn:E1; [|contradiction]. destruct O as [K1 Er]. cbn [fst snd] in *. subst.
  exists t, s1, rs. split; [exact Et|]. split; [exact E1|]. eapply X; [|exact HP]. apply (get_rel bptree_backend RB _ _ RB_look K1).
Qed.

(* Plain histories with all their answers *)
Lemma answers_app ops1 : forall m ops2, answers m (ops1 ++ ops2) = answers m ops1 ++ answers (plain_run m ops1) ops2.
Proof. induction ops1 as [|o t IH]; intros m ops2; [reflexivity|]. cbn [app answers plain_run fold_left]. rewrite IH. reflexivity. Qed.

Lemma plain_spec ops : Forall data_op ops ->
  same_as ops (fun rs get => rs = answers (fun _ => None) ops /\ forall k, get k = Ok (reads (plain_run (fun _ => None) ops) k)).
Proof.
  intros F. destruct (plain_history ops F) as (F1 & F2 & F3). destruct (kvs_lemma _ F1) as (s & rs & h & E & _ & G & _). rewrite F2, F3 in *.
  exists s, rs. split; [exact E|]. split; [|exact G]. clear F1 F2 F3 G h. revert s rs E. induction ops as [|o ops IH] using rev_ind; intros s rs E.
  - injection E as <- <-. reflexivity.
  - apply Forall_app in F as [F Fo]. inversion Fo; subst. rewrite krun_app in E.
    destruct (plain_history ops F) as (F1 & F2 & F3). destruct (kvs_lemma _ F1) as (s1 & rs1 & h1 & E1 & _ & G & _).
    destruct (plain_history (ops ++ [o]) (proj2 (Forall_app _ _ _) (conj F Fo))) as (Fa & Fb & Fc). destruct (kvs_lemma _ Fa) as (s2 & rs2 & h2 & E2 & C & _ & _).
    rewrite F2 in E1. rewrite F3 in G. rewrite Fb in E2, C. rewrite krun_app, E1 in E2. cbn [obind] in E2. rewrite E1 in E. cbn [obind] in E. rewrite answers_app, <- (IH F _ _ E1).
    cbn [krun] in E, E2. destruct (kstep spec_backend s1 o) as [[s3 r]|] eqn:Es; cbn [obind] in E, E2; [|discriminate].
    injection E as <- <-. injection E2 as <- <-. f_equal. cbn [answers]. f_equal. apply Forall2_app_inv_l in C as (c1 & c2 & C1 & C2 & Ec).
    inversion C2 as [|o' y lo ly Cy Cn]; subst. inversion Cn; subst. apply app_inj_tail in Ec as [_ <-]. destruct o; cbn [kstep data_op code_ok] in *; try contradiction.
    + destruct (sid_kvs_set _ _ _ _ _ _ _) as [[[a b] c0]|]; cbn [obind] in Es; [|discriminate]. injection Es as <- <-. cbn in *. congruence.
    + destruct (sid_kvs_unset _ _ _ _ _) as [[a b]|]; cbn [obind] in Es; [|discriminate]. injection Es as <- <-. cbn in *. congruence.
    + rewrite G in Es. cbn [obind] in Es. destruct (reads _ _) as [a b]. cbn [obind] in Es. injection Es as <- <-. reflexivity.
    + assert (rb s1 = None).
      { destruct (history_ok _ _ _ _ empty_St F1) as (sx & lx & rx & Ex & (Hx & Hy & Hz & _) & _). rewrite F2 in Ex. rewrite E1 in Ex. injection Ex as <- <-. assumption. }
      unfold trans_active in Es. rewrite H in Es. injection Es as <- <-. reflexivity.
Qed.


Lemma kvs_plain hint order ops : hint <= 2 ^ 31 -> (4 <= order)%nat -> Forall data_op ops ->
  let P := fun rs get => rs = answers (fun _ => None) ops /\ forall k, get k = Ok (reads (plain_run (fun _ => None) ops) k) in
  on_hash hint ops P /\ on_bptree order ops P.
Proof.
  intros H O F P. assert (X : ext P) by (intros rs f g E [A B]; split; [exact A|]; intros k; rewrite <- E; apply B).
  assert (A : Forall no_alias_op ops) by (eapply Forall_impl; [|exact F]; intros []; cbn; auto).
  split; [apply to_hash|apply to_bptree]; auto; apply plain_spec; exact F.
Qed.

Lemma kvs_segs hint order segs : hint <= 2 ^ 31 -> (4 <= order)%nat -> Forall seg_ok segs ->
  let P := fun rs get => Forall2 code_ok (history segs) rs /\ forall k, get k = Ok (reads (seg_run segs) k) in
  on_hash hint (history segs) P /\ on_bptree order (history segs) P.
Proof.
  intros H O F P. assert (X : ext P) by (intros rs f g E [A B]; split; [exact A|]; intros k; rewrite <- E; apply B).
  assert (A := history_no_alias _ F). destruct (kvs_lemma _ F) as (s & rs & h & E & C & G & _).
  assert (S : same_as (history segs) P) by (exists s, rs; split; [exact E|split; assumption]).
  split; [apply to_hash|apply to_bptree]; auto.
Qed.

(* Keys *)
Lemma canon_white w k : forallb isspace w = true -> canonicalize_key (w ++ k) = canonicalize_key k.
Proof. induction w as [|c w IH]; [reflexivity|]. cbn [forallb app canonicalize_key]. intros H. apply andb_prop in H as [-> H]. apply IH, H. Qed.
Lemma canon_split k : exists w, forallb isspace w = true /\ k = w ++ canonicalize_key k.
Proof.
  induction k as [|c k (w & H & E)]; [exists []; auto|]. cbn [canonicalize_key]. destruct (isspace c) eqn:Ec.
  - exists (c :: w). cbn. rewrite Ec, H, <- E. auto.
  - exists []. auto.
Qed.
Lemma canon_head k c t : canonicalize_key k = c :: t -> isspace c = false.
Proof. induction k as [|a k IH]; cbn [canonicalize_key]; [discriminate|]. destruct (isspace a) eqn:E; [exact IH|]. intros H. injection H as <- _. exact E. Qed.

Lemma white_isspace c : isspace c = true <-> white c.
Proof.
  unfold isspace, white. rewrite orb_true_iff, andb_true_iff, N.eqb_eq, !N.leb_le. cbn [In]. split; [intros [H|[H1 H2]]; lia|intuition lia].
Qed.
Lemma canon_diff k k' : canonicalize_key k = canonicalize_key k' <->
  exists w w' t, Forall white w /\ Forall white w' /\ k = w ++ t /\ k' = w' ++ t.
Proof.
  assert (W : forall w, Forall white w <-> forallb isspace w = true).
  { intros w. rewrite forallb_forall, Forall_forall. split; intros H x Hx; apply white_isspace; auto. }
  setoid_rewrite W.
  split.
  - intros E. destruct (canon_split k) as (w & H & Ek), (canon_split k') as (w' & H' & Ek'). exists w, w', (canonicalize_key k). rewrite E in *. auto.
  - intros (w & w' & t & H & H' & -> & ->). rewrite !canon_white; auto.
Qed.


(* At most one transaction *)
Section Open.
  Variable BE : backend.
  Notation op := (trans_active BE).
  Lemma set_value_open s k nw nsz fn has is s' x y : set_value BE s k nw nsz fn has is = Ok (s', x, y) -> op s' = op s.
  Proof.
    unfold set_value. destruct (blook BE (bk s) k) as [l|]; cbn [obind]; [|discriminate]. destruct (found l) as [[o z] r0].
    destruct (run_setcb _ _ _ _ _) as [[[[r h] a] b]|]; cbn [obind]; [|discriminate]. destruct (r =? 0)%Z.
    - destruct (hfree h a); cbn [obind]; [|discriminate]. destruct (bupd BE _ _ _); cbn [obind]; [|discriminate]. intros E. injection E as <- <- <-. reflexivity.
    - destruct (rb (with_heap BE s h)) as [q|] eqn:Eq; cbn [obind].
      + destruct (bupd BE _ _ _); cbn [obind]; [|discriminate]. intros E. injection E as <- <- <-. unfold trans_active. cbn in *. rewrite Eq. reflexivity.
      + destruct has; cbn [obind].
        * destruct (bupd BE _ _ _); cbn [obind]; [|discriminate]. intros E. injection E as <- <- <-. reflexivity.
        * destruct (hfree h o); cbn [obind]; [|discriminate]. destruct (bupd BE _ _ _); cbn [obind]; [|discriminate]. intros E. injection E as <- <- <-. reflexivity.
  Qed.
  Lemma unset_value_open s k fn has u s' x : unset_value BE s k fn has u = Ok (s', x) -> op s' = op s.
  Proof.
    unfold unset_value. destruct (blook BE (bk s) k) as [l|]; cbn [obind]; [|discriminate]. destruct (found l) as [[o z] r0].
    destruct (match fn with Some _ => _ | None => _ end) as [r|]; cbn [obind]; [|discriminate]. destruct (r =? 1)%Z.
    - destruct u; cbn [obind].
      + destruct (bupd BE _ _ _); cbn [obind]; [|discriminate]. intros E. injection E as <- _. reflexivity.
      + destruct (_ && _); cbn [obind].
        * destruct (hfree _ o); cbn [obind]; [|discriminate]. destruct (bupd BE _ _ _); cbn [obind]; [|discriminate]. intros E. injection E as <- _. reflexivity.
        * destruct (bupd BE _ _ _); cbn [obind]; [|discriminate]. intros E. injection E as <- _. reflexivity.
    - destruct (bupd BE _ _ _); cbn [obind]; [|discriminate]. intros E. injection E as <- _. reflexivity.
  Qed.
  Lemma kstep_open s o s' r : kstep BE s o = Ok (s', r) -> op s' = opens (op s) o.
  Proof.
    destruct o as [k c m a fn|k a fn|k|k a f| |b|]; cbn [kstep opens].
    - unfold sid_kvs_set. destruct k as [|k0 kt]; [intros E; injection E as <- _; reflexivity|]. destruct (halloc _ _) as [h nw].
      destruct (set_value BE (with_heap BE s h) _ _ _ _ _ _) as [[[s1 n1] [av asz]]|] eqn:E1; cbn [obind]; [|discriminate]. apply set_value_open in E1.
      change (op (with_heap BE s h)) with (op s) in E1.
      destruct a as [ak|]; [|intros E; injection E as <- _; exact E1]. destruct (av =? 0); [intros E; injection E as <- _; exact E1|].
      destruct (set_value BE s1 _ _ _ _ _ _) as [[[s2 n2] w2]|] eqn:E2; cbn [obind]; [|discriminate]. apply set_value_open in E2. intros E; injection E as <- _. congruence.
    - unfold sid_kvs_unset. destruct k as [|k0 kt]; [intros E; injection E as <- _; reflexivity|].
      destruct (unset_value _ _ _ _ _ _) as [[s1 [av asz]]|] eqn:E1; cbn [obind]; [|discriminate]. apply unset_value_open in E1.
      destruct a as [ak|]; [|intros E; injection E as <- _; exact E1]. destruct (av =? 0); [intros E; injection E as <- _; exact E1|].
      destruct (set_value BE _ _ _ _ _ _ _) as [[[s2 n2] w2]|] eqn:E2; cbn [obind]; [|discriminate]. intros E; injection E as <- _. exact E1.
    - destruct (sid_kvs_get _ _ _) as [[a b]|]; cbn [obind]; [|discriminate]. intros E; injection E as <- _. reflexivity.
    - unfold sid_kvs_add_alias. destruct k; [intros E; injection E as <- _; reflexivity|]. destruct a; [intros E; injection E as <- _; reflexivity|].
      destruct (balias BE _ _ _ _) as [[b r0]|]; cbn [obind]; [|discriminate]. intros E; injection E as <- _. reflexivity.
    - unfold trans_begin. destruct (trans_active BE s) eqn:Ea; intros E; injection E as <- _; [exact Ea|reflexivity].
    - unfold trans_end. destruct (rb s) eqn:Er; cbn [obind].
      + destruct (if b then Ok s else _) as [s1|]; cbn [obind]; [|discriminate]. destruct (if b then _ else _) as [s2|]; cbn [obind]; [|discriminate].
        intros E; injection E as <- _. reflexivity.
      + intros E; injection E as <- _. unfold trans_active. rewrite Er. reflexivity.
    - intros E; injection E as <- _. reflexivity.
  Qed.
  Lemma krun_open ops : forall s s' rs, krun BE s ops = Ok (s', rs) -> op s' = fold_left opens ops (op s).
  Proof.
    induction ops as [|o t IH]; intros s s' rs; cbn [krun]; [intros E; injection E as <- _; reflexivity|].
    destruct (kstep BE s o) as [[s1 r]|] eqn:E1; cbn [obind]; [|discriminate]. destruct (krun BE s1 t) as [[s2 rs2]|] eqn:E2; cbn [obind]; [|discriminate].
    intros E; injection E as <- _. rewrite (IH _ _ _ E2), (kstep_open _ _ _ _ E1). reflexivity.
  Qed.
  Lemma one_open s ops s' rs : rb s = None -> krun BE s ops = Ok (s', rs) ->
    kstep BE s' KActive = Ok (s', (if is_open ops then 1%Z else 0%Z, None)) /\
    exists s2, kstep BE s' KBegin = Ok (s2, (if is_open ops then (- EBUSY)%Z else 0%Z, None)) /\
      (is_open ops = true -> s2 = s') /\ (forall k, sid_kvs_get BE s2 k = sid_kvs_get BE s' k).
  Proof.
    intros R E. apply krun_open in E. assert (A : trans_active BE s = false) by (unfold trans_active; rewrite R; reflexivity). rewrite A in E.
    fold (is_open ops) in E. cbn [kstep]. rewrite E. split; [reflexivity|]. unfold trans_begin. rewrite E. destruct (is_open ops); eexists; split; try reflexivity; split; auto; discriminate.
  Qed.
End Open.

Lemma mono_on (P Q : list kres -> (bytes -> outcome (option content * Z)) -> Prop) hint order ops :
  (forall rs g, P rs g -> Q rs g) -> on_hash hint ops P /\ on_bptree order ops P -> on_hash hint ops Q /\ on_bptree order ops Q.
Proof.
  intros H [(t & s & rs & E1 & E2 & E3) (b & s' & rs' & F1 & F2 & F3)]. split; [exists t, s, rs|exists b, s', rs']; auto.
Qed.
Lemma plain_run_snoc m ops o : plain_run m (ops ++ [o]) = plain_step (plain_run m ops) o.
Proof. unfold plain_run. rewrite fold_left_app. reflexivity. Qed.
Lemma same_neq a b : a <> b -> same a b = false. Proof. destruct (same_spec a b); congruence. Qed.
Lemma same_refl a : same a a = true. Proof. destruct (same_spec a a); congruence. Qed.

Lemma same_entry_lemma hint order ops k c k' :
  hint <= 2 ^ 31 -> (4 <= order)%nat -> Forall data_op ops -> k <> [] -> k' <> [] ->
  let P (_ : list kres) get :=
    ((exists w w' t, Forall white w /\ Forall white w' /\ k = w ++ t /\ k' = w' ++ t) ->
      get k' = Ok (Some c, 0%Z)) /\
    (~ (exists w w' t, Forall white w /\ Forall white w' /\ k = w ++ t /\ k' = w' ++ t) ->
      get k' = Ok (reads (plain_run (fun _ => None) ops) k')) in
  on_hash hint (ops ++ [KSet k c false None None]) P /\ on_bptree order (ops ++ [KSet k c false None None]) P.
Proof.
  intros H O F N N' P. eapply mono_on; [|apply (kvs_plain hint order (ops ++ [KSet k c false None None]) H O); apply Forall_app; split; [exact F|repeat constructor]].
  intros rs g [_ G]. unfold P. rewrite G, plain_run_snoc. set (m := plain_run _ _). clearbody m.
  assert (E : plain_step m (KSet k c false None None) = mset m (canonicalize_key k) (Some c)).
  { destruct k; [congruence|]. cbn [plain_step accepted archive]. unfold as_stored. destruct (cvec c), (cref c); reflexivity. }
  rewrite E. unfold reads. destruct k' as [|x k']; [congruence|]. unfold mset. rewrite <- canon_diff. split; intros W.
  - rewrite W, same_refl. reflexivity.
  - rewrite same_neq by exact W. reflexivity.
Qed.

Lemma archive_lemma hint order ops o k a :
  hint <= 2 ^ 31 -> (4 <= order)%nat -> Forall data_op (ops ++ [o]) -> k <> [] -> a <> [] ->
  canonicalize_key a <> canonicalize_key k ->
  let m := plain_run (fun _ => None) ops in
  let old := m (canonicalize_key k) in
  forall b : bool,
  (exists c mg fn, o = KSet k c mg (Some a) fn /\ (b = true <-> accepted fn old (as_stored c mg) <> None)) \/
  (exists fn, o = KUnset k (Some a) fn /\ (b = true <-> allows fn old = true)) ->
  let P (_ : list kres) get :=
    get a = match b, old with true, Some v => Ok (Some v, 0%Z) | _, _ => Ok (reads m a) end in
  on_hash hint (ops ++ [o]) P /\ on_bptree order (ops ++ [o]) P.
Proof.
  intros H O F N N' D m old b X P. eapply mono_on; [|apply (kvs_plain hint order (ops ++ [o]) H O F)].
  intros rs g [_ G]. unfold P. rewrite G, plain_run_snoc. fold m. unfold reads. destruct a as [|a0 a]; [congruence|].
  destruct X as [(c & mg & fn & -> & X)|(fn & -> & X)]; [rewrite plain_set_eq by exact N|rewrite plain_unset_eq by exact N]; fold old.
  - destruct (accepted fn old (as_stored c mg)) as [c'|].
    + assert (b = true) as -> by (apply X; discriminate). unfold archive. destruct old; unfold mset; [rewrite same_refl; reflexivity|].
      rewrite same_neq by congruence. reflexivity.
    + assert (b = false) as -> by (destruct b; [exfalso; apply (proj1 X); auto|reflexivity]). destruct old; reflexivity.
  - destruct (allows fn old).
    + assert (b = true) as -> by (apply X; reflexivity). unfold archive. destruct old; unfold mset; [rewrite same_refl; reflexivity|].
      rewrite same_neq by congruence. reflexivity.
    + assert (b = false) as -> by (destruct b; [assert (false = true) by (apply X; reflexivity); discriminate|reflexivity]). destruct old; reflexivity.
Qed.

Lemma kvs_freed segs : Forall seg_ok segs ->
  exists s rs h, krun spec_backend kempty (history segs) = Ok (s, rs) /\ kvs_destroy s = Ok h /\ still_allocated h = [].
Proof. intros F. destruct (kvs_lemma segs F) as (s & rs & h & A & _ & _ & B & C). exists s, rs, h. auto. Qed.

(* Computing single histories. *)
Definition bget (order : nat) (ops : list kop) (k : bytes) : option (outcome (option content * Z)) :=
  match bptree_create order with
  | Some b => match krun bptree_backend (Build_kv bptree_backend b [] None None) ops with
              | Ok (s, _) => Some (sid_kvs_get bptree_backend s k)
              | UB => None
              end
  | None => None
  end.
Lemma bget_on order ops k x : bget order ops k = Some x -> on_bptree order ops (fun _ get => get k = x).
Proof.
  unfold bget, on_bptree. destruct (bptree_create order) as [b|]; [|discriminate]. destruct (krun _ _ _) as [[s rs]|] eqn:E; [|discriminate].
  intros H. injection H as H. exists b, s, rs. auto.
Qed.
Definition ends_ub (order : nat) (ops : list kop) : bool :=
  match bptree_create order with
  | Some b => match krun bptree_backend (Build_kv bptree_backend b [] None None) ops with Ok _ => false | UB => true end
  | None => false
  end.
Lemma ends_ub_on order ops : ends_ub order ops = true ->
  exists b, bptree_create order = Some b /\ krun bptree_backend (Build_kv bptree_backend b [] None None) ops = UB.
Proof. unfold ends_ub. destruct (bptree_create order) as [b|]; [|discriminate]. destruct (krun _ _ _) eqn:E; [discriminate|]. intros _. exists b. auto. Qed.
Definition leaves (ops : list kop) : option (outcome (list obj)) :=
  match krun spec_backend kempty ops with Ok (s, _) => Some (let! h := kvs_destroy s in Ok (still_allocated h)) | UB => None end.
Lemma leaves_on ops x : leaves ops = Some (Ok x) ->
  exists s rs h, krun spec_backend kempty ops = Ok (s, rs) /\ kvs_destroy s = Ok h /\ still_allocated h = x.
Proof.
  unfold leaves. destruct (krun _ _ _) as [[s rs]|]; [|discriminate]. destruct (kvs_destroy s) as [h|] eqn:E; cbn [obind]; [|discriminate].
  intros H. injection H as H. exists s, rs, h. auto.
Qed.
Lemma leaves_ub ops : leaves ops = Some UB -> exists s rs, krun spec_backend kempty ops = Ok (s, rs) /\ kvs_destroy s = UB.
Proof.
  unfold leaves. destruct (krun _ _ _) as [[s rs]|]; [|discriminate]. destruct (kvs_destroy s) as [h|] eqn:E; cbn [obind]; [discriminate|]. exists s, rs. auto.
Qed.
