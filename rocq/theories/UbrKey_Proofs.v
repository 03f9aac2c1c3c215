From Verif Require Import Base Kvs_Model Kvs_All Tok_Model Tok_Proofs UtilStr_Proofs UbrKey_Model UbrKey_Spec.
Local Open Scope nat_scope.

Lemma or_str s : or_empty s = str s. Proof. destruct s; reflexivity. Qed.
Lemma op_txt o : op_prefix o = op_text o. Proof. destruct o; reflexivity. Qed.
Lemma ns_txt o : ns_prefix o = ns_text o. Proof. destruct o; reflexivity. Qed.

Lemma compose_joined k : compose_key k = (match ks_extra k with Some e => e | None => B " " end) ++ joined (parts_of k).
Proof.
  unfold compose_key, do_compose_key, parts_of, joined. rewrite !or_str, op_txt, ns_txt. reflexivity.
Qed.
Lemma prefix_joined k : compose_key_prefix k ++ str (ks_core k) = joined (parts_of k).
Proof.
  unfold compose_key_prefix, do_compose_key, parts_of, joined. rewrite !or_str, op_txt, ns_txt.
  repeat (rewrite <- app_assoc; cbn [app]). reflexivity.
Qed.

Ltac nocol := let H := fresh in intros H; repeat (destruct H as [H|H]; [discriminate H|]); destruct H.
Lemma no_colon_op o : no_colon (op_text o). Proof. destruct o; nocol. Qed.
Lemma no_colon_ns o : no_colon (ns_text o). Proof. destruct o; nocol. Qed.
Lemma opt_str s : opt_no_colon s -> no_colon (str s). Proof. destruct s; [auto|intros _ []]. Qed.

Lemma index_join a t : no_colon a -> index JOIN (a ++ JOIN :: t) = Some (length a).
Proof. intros H. induction a as [|c a IH]; [reflexivity|]. cbn [app index length]. destruct (Ascii.eqb_spec c JOIN) as [->|N].
  - exfalso. apply H. left. reflexivity.
  - rewrite IH; [reflexivity|]. intros Hi. apply H. right. exact Hi. Qed.
Lemma index_no a : no_colon a -> index JOIN a = None.
Proof. intros H. induction a as [|c a IH]; [reflexivity|]. cbn [index]. destruct (Ascii.eqb_spec c JOIN) as [->|N].
  - exfalso. apply H. left. reflexivity.
  - rewrite IH; [reflexivity|]. intros Hi. apply H. right. exact Hi. Qed.
Lemma skip_join a t : skipn (length a + 1) (a ++ JOIN :: t) = t.
Proof. rewrite skipn_app, skipn_all2 by lia. replace (length a + 1 - length a) with 1 by lia. reflexivity. Qed.
Lemma first_join a t : firstn (length a) (a ++ JOIN :: t) = a.
Proof. rewrite firstn_app, firstn_all, Nat.sub_diag. cbn. apply app_nil_r. Qed.

(* decomposition of a string whose parts are l *)
Lemma decompose_joined : forall l n, l <> [] -> length l <= n -> (forall i p, nth_error l i = Some p -> i < n - 1 -> no_colon p) ->
  decompose_from n (joined l) = l.
Proof.
  induction l as [|a l IH]; intros n Hn Hl H; [congruence|].
  destruct n as [|n]; [cbn in Hl; lia|].
  destruct l as [|b l].
  - cbn [joined]. destruct n as [|n]; [reflexivity|]. cbn [decompose_from]. rewrite index_no; [reflexivity|]. apply (H 0); [reflexivity|lia].
  - destruct n as [|n]; [cbn in Hl; lia|].
    change (joined (a :: b :: l)) with (a ++ JOIN :: joined (b :: l)).
    change (decompose_from (S (S n)) (a ++ JOIN :: joined (b :: l))) with
      (match index JOIN (a ++ JOIN :: joined (b :: l)) with None => [a ++ JOIN :: joined (b :: l)]
       | Some i => firstn i (a ++ JOIN :: joined (b :: l)) :: decompose_from (S n) (skipn (i + 1) (a ++ JOIN :: joined (b :: l))) end).
    rewrite index_join by (apply (H 0); [reflexivity|lia]).
    rewrite first_join, skip_join. f_equal. apply IH; [discriminate|cbn in *; lia|].
    intros i p Hp Hi. apply (H (Datatypes.S i) p); [exact Hp|lia].
Qed.

(* and every string has its parts *)
Lemma index_cut s i : index JOIN s = Some i -> s = firstn i s ++ JOIN :: skipn (i + 1) s /\ no_colon (firstn i s).
Proof.
  revert i; induction s as [|c s IH]; intros i; cbn [index]; [discriminate|].
  destruct (Ascii.eqb_spec c JOIN) as [->|N].
  - intros E. injection E as <-. split; [reflexivity|intros []].
  - destruct (index JOIN s) as [j|] eqn:E; [|discriminate]. intros E2. injection E2 as <-.
    destruct (IH j eq_refl) as (A & C). cbn [firstn Nat.add skipn app]. split; [f_equal; exact A|].
    intros [Hc|Hi]; [exact (N Hc)|exact (C Hi)].
Qed.
Lemma index_none_no s : index JOIN s = None -> no_colon s.
Proof.
  induction s as [|c s IH]; cbn [index]; [intros _ []|]. destruct (Ascii.eqb_spec c JOIN) as [->|N]; [discriminate|].
  destruct (index JOIN s); [discriminate|]. intros _ [Hc|Hi]; [exact (N Hc)|exact (IH eq_refl Hi)].
Qed.
Lemma decompose_parts : forall n s, 0 < n -> decompose_from n s <> [] /\ length (decompose_from n s) <= n
  /\ joined (decompose_from n s) = s /\ (forall i p, nth_error (decompose_from n s) i = Some p -> i < n - 1 -> no_colon p).
Proof.
  induction n as [|n IH]; intros s Hn; [lia|]. destruct n as [|n].
  - cbn. repeat split; [discriminate|lia|intros; lia].
  - change (decompose_from (S (S n)) s) with
      (match index JOIN s with None => [s] | Some i => firstn i s :: decompose_from (S n) (skipn (i + 1) s) end).
    destruct (index JOIN s) as [i|] eqn:E.
    + destruct (index_cut s i E) as (A & C). destruct (IH (skipn (i + 1) s) ltac:(lia)) as (D1 & D2 & D3 & D4).
      split; [discriminate|]. split; [cbn [List.length]; lia|]. split.
      * destruct (decompose_from (S n) (skipn (i + 1) s)) as [|x l]; [congruence|].
        change (joined (firstn i s :: x :: l)) with (firstn i s ++ JOIN :: joined (x :: l)). rewrite D3. symmetry. exact A.
      * intros [|j] p Hp Hj; [injection Hp as <-; exact C|]. cbn [nth_error] in Hp. apply (D4 j p Hp). lia.
    + split; [discriminate|]. split; [cbn; lia|]. split; [reflexivity|].
      intros [|j] p Hp Hj; [injection Hp as <-; apply index_none_no, E|destruct j; discriminate].
Qed.
Lemma decompose_lemma key : has_parts key (fst (decompose_key key)) /\ snd (decompose_key key) = length (fst (decompose_key key)) - 1.
Proof.
  unfold decompose_key. cbn [fst snd]. destruct (decompose_parts 7 key ltac:(lia)) as (A & C & D & E).
  split; [|reflexivity]. split; [symmetry; exact D|]. split; [exact A|]. split; [exact C|]. intros i p Hp Hi. apply (E i p Hp). lia.
Qed.
Lemma decompose_unique key l : has_parts key l -> fst (decompose_key key) = l.
Proof. intros (-> & A & C & D). apply decompose_joined; [exact A|exact C|]. intros i p Hp Hi. apply (D i p Hp). unfold KEY_PART_COUNT in Hi. lia. Qed.

Lemma clean_parts k : clean k -> has_parts (joined (parts_of k)) (parts_of k).
Proof.
  intros (A & C & D & E). split; [reflexivity|]. split; [discriminate|]. split; [cbn; lia|].
  intros i p Hp Hi. do 7 (destruct i as [|i]; [cbn in Hp; injection Hp as <-; auto using no_colon_op, no_colon_ns, opt_str; lia|]). lia.
Qed.
Lemma key_tail_lemma k : ks_extra k = None -> skipn 1 (compose_key k) = joined (parts_of k).
Proof. intros H. rewrite compose_joined, H. reflexivity. Qed.
Lemma roundtrip_lemma k : clean k -> ks_extra k = None ->
  decompose_key (skipn 1 (compose_key k)) = (parts_of k, 6).
Proof.
  intros H E. rewrite key_tail_lemma by exact E. rewrite (surjective_pairing (decompose_key _)).
  rewrite (proj2 (decompose_lemma _)), (decompose_unique _ _ (clean_parts k H)). reflexivity.
Qed.
Lemma parts_inj a b : parts_of a = parts_of b -> same_parts a b.
Proof.
  unfold parts_of, same_parts. intros E. injection E. intros. repeat split; try assumption.
  - destruct (ks_op a), (ks_op b); first [reflexivity|discriminate].
  - destruct (ks_ns a), (ks_ns b); first [reflexivity|discriminate].
Qed.
Lemma same_parts_of a b : same_parts a b -> parts_of a = parts_of b.
Proof. unfold parts_of, same_parts. intros (-> & -> & -> & -> & -> & -> & ->). reflexivity. Qed.
Lemma joined_inj a b : clean a -> clean b -> joined (parts_of a) = joined (parts_of b) <-> same_parts a b.
Proof.
  intros Ha Hb. split; [|intros H; f_equal; apply same_parts_of, H].
  intros E. apply parts_inj. rewrite <- (decompose_unique _ _ (clean_parts a Ha)), E. apply decompose_unique, clean_parts, Hb.
Qed.
Lemma op_nospace o t : canonicalize_key (op_text o ++ ":"%char :: t) = op_text o ++ ":"%char :: t.
Proof. destruct o; reflexivity. Qed.
Lemma canon_joined k : canonicalize_key (joined (parts_of k)) = joined (parts_of k).
Proof. unfold parts_of. change (joined (?a :: ?b :: ?l)) with (a ++ ":"%char :: joined (b :: l)). apply op_nospace. Qed.
Lemma canon_compose k : canonicalize_key (compose_key k) =
  match ks_extra k with None => joined (parts_of k) | Some e => canonicalize_key (e ++ joined (parts_of k)) end.
Proof. rewrite compose_joined. destruct (ks_extra k); [reflexivity|]. cbn [B app canonicalize_key]. apply canon_joined. Qed.

(* injectivity through the store *)
Definition blank (k : key_spec) : Prop := ks_extra k = None \/ ks_extra k = Some [C_BLANK].
Lemma canon_blank k : blank k -> canonicalize_key (compose_key k) = joined (parts_of k).
Proof. rewrite canon_compose. intros [->| ->]; [reflexivity|]. change ([C_BLANK] ++ ?x) with (" "%char :: x). cbn [canonicalize_key]. apply canon_joined. Qed.
Lemma key_inj_lemma a b : clean a -> clean b -> ks_extra a = None -> ks_extra b = None ->
  (canonicalize_key (compose_key a) = canonicalize_key (compose_key b) <-> same_parts a b).
Proof. intros Ha Hb Ea Eb. rewrite !canon_blank by (left; assumption). apply joined_inj; assumption. Qed.

(* extraction of one part *)
Lemma skip_parts_spec : forall n k m s, k <= n -> length (decompose_from (n + m) s) > k -> 0 < m ->
  exists r, skip_parts k s = Some r /\ decompose_from (n - k + m) r = skipn k (decompose_from (n + m) s).
Proof.
  induction n as [|n IH]; intros k m s Hk Hl Hm.
  - replace k with 0 in * by lia. exists s. split; reflexivity.
  - destruct k as [|k]; [exists s; split; reflexivity|].
    destruct m as [|m]; [lia|]. replace (S n + S m) with (S (S (n + m))) in * by lia.
    change (decompose_from (S (S (n + m))) s) with
      (match index JOIN s with None => [s] | Some i => firstn i s :: decompose_from (S (n + m)) (skipn (i + 1) s) end) in *.
    cbn [skip_parts]. destruct (index JOIN s) as [i|] eqn:E; [|cbn in Hl; lia].
    cbn [List.length] in Hl. replace (S (n + m)) with (n + S m) in * by lia.
    destruct (IH k (S m) (skipn (i + 1) s) ltac:(lia) ltac:(lia) ltac:(lia)) as (r & A & C).
    exists r. split; [exact A|]. cbn [skipn Nat.sub]. exact C.
Qed.
Lemma skip_parts_none : forall n k m s, k <= n -> length (decompose_from (n + m) s) <= k -> 0 < m -> skip_parts k s = None.
Proof.
  induction n as [|n IH]; intros k m s Hk Hl Hm.
  - destruct (decompose_parts (0 + m) s ltac:(lia)) as (A & _). destruct (decompose_from (0 + m) s); [congruence|cbn in Hl; lia].
  - destruct k as [|k]. { destruct (decompose_parts (S n + m) s ltac:(lia)) as (A & _). destruct (decompose_from (S n + m) s); [congruence|cbn in Hl; lia]. }
    destruct m as [|m]; [lia|]. replace (S n + S m) with (S (S (n + m))) in * by lia.
    change (decompose_from (S (S (n + m))) s) with
      (match index JOIN s with None => [s] | Some i => firstn i s :: decompose_from (S (n + m)) (skipn (i + 1) s) end) in *.
    cbn [skip_parts]. destruct (index JOIN s) as [i|] eqn:E; [|reflexivity].
    cbn [List.length] in Hl. replace (S (n + m)) with (n + S m) in * by lia.
    apply (IH k (S m)); lia.
Qed.
Lemma get_part_lemma key l i p : has_parts key l -> i < 7 ->
  (get_key_part key i = Some p <-> nth_error l i = Some p /\ (i = 6 \/ i < length l - 1)).
Proof.
  intros H Hi. pose proof (decompose_unique key l H) as E. unfold decompose_key in E. cbn [fst] in E. change KEY_PART_COUNT with (6 + 1) in E.
  destruct H as (_ & _ & Hl7 & _).
  unfold get_key_part. destruct (le_lt_dec (length l) i) as [L|L].
  - rewrite (skip_parts_none 6 i 1 key) by (rewrite ?E; lia).
    split; [discriminate|]. intros (N & _). apply nth_error_Some_length in N || (assert (i < length l) by (apply nth_error_Some; congruence); lia).
  - destruct (skip_parts_spec 6 i 1 key ltac:(lia) ltac:(rewrite E; lia) ltac:(lia)) as (r & -> & D). rewrite E in D.
    assert (Hh : nth_error l i = hd_error (skipn i l)).
    { clear. revert i; induction l as [|a l IH]; intros [|i]; cbn; auto. }
    change (KEY_PART_COUNT - 1) with 6. destruct (Nat.eqb_spec i 6) as [->|N6].
    + cbn [decompose_from Nat.sub Nat.add] in D. rewrite Hh, <- D. cbn [hd_error].
      split; [intros Ep; injection Ep as ->; auto|intros (Ep & _); congruence].
    + replace (6 - i + 1) with (S (S (5 - i))) in D by lia.
      change (decompose_from (S (S (5 - i))) r) with
        (match index JOIN r with None => [r] | Some j => firstn j r :: decompose_from (S (5 - i)) (skipn (j + 1) r) end) in D.
      pose proof (f_equal (@List.length _) D) as Dl. rewrite skipn_length in Dl.
      destruct (index JOIN r) as [j|].
      * rewrite Hh, <- D. cbn [hd_error]. cbn [List.length] in Dl.
        pose proof (proj1 (decompose_parts (S (5 - i)) (skipn (j + 1) r) ltac:(lia))) as NE.
        assert (length (decompose_from (S (5 - i)) (skipn (j + 1) r)) <> 0) by (destruct (decompose_from (S (5 - i)) (skipn (j + 1) r)); [congruence|discriminate]).
        split; [intros Ep; injection Ep as ->; split; [reflexivity|right; lia]|intros (Ep & _); congruence].
      * cbn [List.length] in Dl. split; [discriminate|]. intros (_ & [|Hc]); [congruence|lia].
Qed.
Lemma get_rest_lemma key l i : has_parts key l -> i < 7 ->
  get_key_part_rest key i = if i <? length l then Some (joined (skipn i l)) else None.
Proof.
  intros H Hi. pose proof (decompose_unique key l H) as E. unfold decompose_key in E. cbn [fst] in E. change KEY_PART_COUNT with (6 + 1) in E.
  unfold get_key_part_rest. destruct (Nat.ltb_spec i (length l)) as [L|L].
  - destruct (skip_parts_spec 6 i 1 key ltac:(lia) ltac:(rewrite E; lia) ltac:(lia)) as (r & -> & D). rewrite E in D. f_equal.
    rewrite <- D. symmetry. apply decompose_parts. lia.
  - apply (skip_parts_none 6 i 1 key); rewrite ?E; lia.
Qed.
Lemma op_ns_lemma k : clean k -> ks_extra k = None ->
  get_op_from_key (skipn 1 (compose_key k)) = ks_op k /\ get_ns_from_key (skipn 1 (compose_key k)) = ks_ns k.
Proof.
  intros H E. rewrite key_tail_lemma by exact E. pose proof (clean_parts k H) as HP.
  unfold get_op_from_key, get_ns_from_key, KEY_PART_OP, KEY_PART_NS.
  rewrite (proj2 (get_part_lemma _ _ 0 (op_text (ks_op k)) HP ltac:(lia))) by (split; [reflexivity|right; cbn; lia]).
  rewrite (proj2 (get_part_lemma _ _ 2 (ns_text (ks_ns k)) HP ltac:(lia))) by (split; [reflexivity|right; cbn; lia]).
  destruct (ks_op k), (ks_ns k); split; reflexivity.
Qed.

(* the filter *)
Lemma match_lemma : forall last l f, last < length l -> length l <= length f ->
  exists b, key_parts_match l f last = Ok b /\
    (b = true <-> forall i p q, i < last -> nth_error l i = Some p -> nth_error f i = Some (Some q) -> p = q).
Proof.
  induction last as [|last IH]; intros l f Hl Hf.
  - exists true. split; [reflexivity|]. split; [intros _ i p q Hi; lia|reflexivity].
  - destruct l as [|p l]; [cbn in Hl; lia|]. destruct f as [|f0 f]; [cbn in Hf; lia|]. cbn [List.length] in Hl, Hf.
    cbn [key_parts_match].
    destruct f0 as [q|].
    + destruct (list_eq_dec ascii_dec p q) as [<-|N].
      * destruct (IH l f ltac:(lia) ltac:(lia)) as (b & E & Hb). exists b. split; [exact E|]. rewrite Hb. split.
        -- intros H [|i] p' q' Hi Hp Hq; [cbn in Hp, Hq; congruence|]. apply (H i p' q'); [lia|exact Hp|exact Hq].
        -- intros H i p' q' Hi Hp Hq. apply (H (Datatypes.S i) p' q'); [lia|exact Hp|exact Hq].
      * exists false. split; [reflexivity|]. split; [discriminate|]. intros H. exfalso. apply N. apply (H 0 p q); [lia|reflexivity|reflexivity].
    + destruct (IH l f ltac:(lia) ltac:(lia)) as (b & E & Hb). exists b. split; [exact E|]. rewrite Hb. split.
      -- intros H [|i] p' q' Hi Hp Hq; [discriminate Hq|]. apply (H i p' q'); [lia|exact Hp|exact Hq].
      -- intros H i p' q' Hi Hp Hq. apply (H (Datatypes.S i) p' q'); [lia|exact Hp|exact Hq].
Qed.
Lemma strv_lemma values filter : exists r, get_key_strv values filter = Ok r /\
  (exists keep, r = List.filter keep values /\ forall v l, In v values -> has_parts v l -> (keep v = true <-> accepts filter l)).
Proof.
  assert (M : forall v, exists b, (let (p, last) := decompose_key v in key_parts_match p (key_spec_to_parts filter) last) = Ok b /\
    (b = true <-> accepts filter (fst (decompose_key v)))).
  { intros v. destruct (decompose_lemma v) as ((_ & A & C & _) & D). destruct (decompose_key v) as (p, last) eqn:E. cbn [fst snd] in *.
    subst last.
    assert (0 < length p) by (destruct p; [congruence|cbn; lia]).
    destruct (match_lemma (length p - 1) p (key_spec_to_parts filter) ltac:(lia) C) as (b & Eb & Hb). exists b. split; [exact Eb|].
    rewrite Hb. unfold accepts, key_spec_to_parts. rewrite op_txt, ns_txt. reflexivity. }
  induction values as [|v values IH].
  - exists []. split; [reflexivity|]. exists (fun _ => true). split; [reflexivity|intros ? ? []].
  - destruct IH as (r & Er & _).
    pose (keep := fun v => match (let (p, last) := decompose_key v in key_parts_match p (key_spec_to_parts filter) last) with Ok b => b | UB => false end).
    assert (G : forall vs, get_key_strv vs filter = Ok (List.filter keep vs)).
    { induction vs as [|w vs IH]; [reflexivity|]. cbn [get_key_strv List.filter]. rewrite IH. cbn [obind].
      destruct (M w) as (b & Eb & _).
      assert (Ek : keep w = b) by (unfold keep; rewrite Eb; reflexivity). rewrite Ek.
      destruct (decompose_key w) as (p, last). rewrite Eb. reflexivity. }
    exists (List.filter keep (v :: values)). split; [apply G|]. exists keep. split; [reflexivity|].
    intros w l _ H. unfold keep. destruct (M w) as (b & Eb & Hb). rewrite Eb. rewrite Hb.
    rewrite (decompose_unique w l H). reflexivity.
Qed.

(* C47 *)
Lemma three_parts o1 d1 n1 x1 o2 d2 n2 x2 : no_colon d1 -> no_colon d2 ->
  op_text o1 ++ ":"%char :: d1 ++ ":"%char :: ns_text n1 ++ ":"%char :: x1 = op_text o2 ++ ":"%char :: d2 ++ ":"%char :: ns_text n2 ++ ":"%char :: x2 ->
  d1 = d2 /\ n1 = n2.
Proof.
  intros H1 H2 E.
  assert (C : forall a b x y, no_colon a -> no_colon b -> a ++ ":"%char :: x = b ++ ":"%char :: y -> a = b /\ x = y).
  { clear. intros a b x y Ha Hb E. pose proof (f_equal (index JOIN) E) as Ei. rewrite !index_join in Ei by assumption. injection Ei as Ei.
    split.
    - rewrite <- (first_join a x), <- (first_join b y), Ei. f_equal. exact E.
    - rewrite <- (skip_join a x), <- (skip_join b y), Ei. f_equal. exact E. }
  apply C in E as (_ & E); [|apply no_colon_op..]. apply C in E as (-> & E); [|assumption..].
  apply C in E as (E & _); [|apply no_colon_ns..]. split; [reflexivity|]. destruct n1, n2; first [reflexivity|discriminate].
Qed.
Lemma joined_head k : exists x, joined (parts_of k) = op_text (ks_op k) ++ ":"%char :: str (ks_dom k) ++ ":"%char :: ns_text (ks_ns k) ++ ":"%char :: x.
Proof. eexists. reflexivity. Qed.
Lemma head_differs a b : no_colon (str (ks_dom a)) -> no_colon (str (ks_dom b)) ->
  str (ks_dom a) <> str (ks_dom b) \/ ks_ns a <> ks_ns b -> joined (parts_of a) <> joined (parts_of b).
Proof.
  intros Ha Hb H E. destruct (joined_head a) as (x & Ex), (joined_head b) as (y & Ey). rewrite Ex, Ey in E.
  apply three_parts in E as (E1 & E2); [tauto|assumption..].
Qed.

(* the forms in which a composed key reaches the store *)
Inductive variant (k : key_spec) : bytes -> Prop :=
| V_plain : forall e, (e = [] \/ e = [C_BLANK]) -> variant k (e ++ joined (parts_of k))
| V_archive : variant k (C_ARCHIVE :: joined (parts_of k))
| V_sync : variant k (C_SYNC :: joined (parts_of k)).

Lemma canon_variant k x : variant k x ->
  canonicalize_key x = joined (parts_of k) \/ canonicalize_key x = C_ARCHIVE :: joined (parts_of k) \/ canonicalize_key x = C_SYNC :: joined (parts_of k).
Proof.
  intros [e [->| ->]| |]; [left..|right; left; reflexivity|right; right; reflexivity].
  - apply canon_joined.
  - change ([C_BLANK] ++ ?x) with (" "%char :: x). cbn [canonicalize_key]. apply canon_joined.
Qed.
Lemma joined_first k c t : In c [C_ARCHIVE; C_SYNC] -> joined (parts_of k) <> c :: t.
Proof. destruct (joined_head k) as (x & ->). destruct (ks_op k); cbn [op_text B]; intros [<-|[<-|[]]]; discriminate. Qed.
Lemma variants_differ a b x y : no_colon (str (ks_dom a)) -> no_colon (str (ks_dom b)) ->
  str (ks_dom a) <> str (ks_dom b) \/ ks_ns a <> ks_ns b -> variant a x -> variant b y -> canonicalize_key x <> canonicalize_key y.
Proof.
  intros Ha Hb H Vx Vy. pose proof (head_differs a b Ha Hb H) as D.
  destruct (canon_variant a x Vx) as [->|[->| ->]], (canon_variant b y Vy) as [->|[->| ->]];
    first [exact D | apply joined_first; cbn; tauto
          | (let E := fresh in intros E; symmetry in E; revert E; apply joined_first; cbn; tauto)
          | (let E := fresh in intros E; injection E as E; exact (D E))
          | (let E := fresh in intros E; apply (f_equal (hd NUL)) in E; vm_compute in E; discriminate E)].
Qed.

Definition user_spec (k : key_spec) : Prop :=
  ks_op k = OP_SET /\ (ks_dom k = Some DOM_USER \/ ks_dom k = None /\ ks_ns k = NS_UDEV).
Lemma user_system k s : user_spec k -> system_spec s ->
  no_colon (str (ks_dom k)) /\ no_colon (str (ks_dom s)) /\ (str (ks_dom k) <> str (ks_dom s) \/ ks_ns k <> ks_ns s).
Proof.
  intros (Ho & U) S.
  assert (Ud : no_colon (str (ks_dom k))) by (destruct U as [->|(-> & _)]; nocol).
  split; [exact Ud|].
  destruct S as [| |d o c Hc|op dom n p c i co Hd Hc|op p c Hc]; cbn [ks_dom ks_ns str set_spec];
    try (split; [intros []|]; destruct U as [->|(-> & ->)]; [left|right]; discriminate).
  split; [destruct Hd as [<-|[<-|[]]]; nocol|]. left.
  destruct Hd as [<-|[<-|[]]], U as [->|(-> & _)]; discriminate.
Qed.
Lemma api_user n : api_dom n = Some DOM_USER \/ api_dom n = None /\ n = NS_UDEV.
Proof. destruct n; cbn; auto. Qed.
Lemma variant_compose k : ks_extra k = None -> variant k (compose_key k).
Proof. intros E. rewrite compose_joined, E. apply V_plain. auto. Qed.
Lemma variant_tail k : ks_extra k = None -> variant k (skipn 1 (compose_key k)).
Proof. intros E. rewrite key_tail_lemma by exact E. apply (V_plain k []). auto. Qed.
Lemma variant_archive k : ks_extra k = None -> variant k (with_prefix C_ARCHIVE (compose_key k)).
Proof. intros E. rewrite compose_joined, E. apply V_archive. Qed.
Lemma variant_sync k : ks_extra k = None -> variant k (with_prefix C_SYNC (compose_key k)).
Proof. intros E. rewrite compose_joined, E. apply V_sync. Qed.

Lemma set_keys_variant d o n c l x : kv_set_keys d o n c = Some l -> In x l -> exists k, user_spec k /\ variant k x.
Proof.
  unfold kv_set_keys. destruct (ns_eqb n NS_UNDEFINED || bad_name c); [discriminate|]. intros E. injection E as <-.
  assert (U1 : user_spec (set_spec d o (api_dom n) n c)) by (split; [reflexivity|apply api_user]).
  assert (U2 : user_spec (reserve_spec (api_dom n) n c)) by (split; [reflexivity|apply api_user]).
  intros [<-|[<-|[<-|[<-|[]]]]]; eexists;
    [split; [exact U1|]..|split; [exact U2|]]; [apply variant_tail|apply variant_archive|apply variant_sync|apply variant_compose]; reflexivity.
Qed.
Lemma get_keys_variant d o n c a fm fd l x : kv_get_keys d o n c a fm fd = Some l -> In x l -> exists k, user_spec k /\ variant k x.
Proof.
  unfold kv_get_keys. destruct (ns_eqb n NS_UNDEFINED || bad_name c); [discriminate|]. intros E. injection E as <-.
  intros [<-|[]]. exists (get_spec d o (api_dom n) n c a fm fd). split; [split; [reflexivity|apply api_user]|].
  rewrite compose_joined. cbn [ks_extra get_spec]. destruct (a =? 1); [apply V_archive|apply V_plain; auto].
Qed.
Lemma reserve_keys_variant n c l x : kv_reserve_keys n c = Some l -> In x l -> exists k, user_spec k /\ variant k x.
Proof.
  unfold kv_reserve_keys. destruct (bad_name c); [discriminate|]. intros E. injection E as <-.
  assert (U2 : user_spec (reserve_spec (api_dom n) n c)) by (split; [reflexivity|apply api_user]).
  intros [<-|[<-|[]]]; eexists; (split; [exact U2|]); [apply variant_compose|apply variant_sync]; reflexivity.
Qed.
Lemma disk_keys_variant dn c l x : part_disk_keys dn c = Some l -> In x l -> exists k, user_spec k /\ variant k x.
Proof.
  unfold part_disk_keys. destruct (bad_name c); [discriminate|]. intros E. injection E as <-.
  intros [<-|[]]. eexists. split; [|apply variant_compose; reflexivity]. split; [reflexivity|left; reflexivity].
Qed.
Lemma system_extra s : system_spec s -> ks_extra s = None. Proof. intros []; reflexivity. Qed.
Lemma system_variant y : system_key y -> exists s, system_spec s /\ variant s y.
Proof.
  intros (s & S & H). exists s. split; [exact S|]. apply system_extra in S.
  destruct H as [->|[->|[->| ->]]]; [apply variant_compose|apply variant_tail|apply variant_archive|apply variant_sync]; exact S.
Qed.
Lemma stored_canon x k : stored_as x k <-> canonicalize_key x = k.
Proof.
  assert (W : forall c, isspace c = true <-> In c [" "%char; "009"%char; "010"%char; "011"%char; "012"%char; "013"%char]).
  { intros c. split; [|intros H; repeat (destruct H as [<-|H]; [reflexivity|]); destruct H].
    destruct c as [[] [] [] [] [] [] [] []]; intros H; try discriminate H; cbn; tauto. }
  split.
  - intros (w & -> & Hw & Hk). rewrite canon_white.
    + destruct k as [|c t]; [reflexivity|]. cbn [canonicalize_key]. specialize (Hk c t eq_refl). rewrite <- W in Hk. destruct (isspace c); [congruence|reflexivity].
    + apply forallb_forall. intros c Hc. apply W, Hw, Hc.
  - intros <-. destruct (canon_split x) as (w & Hw & E). exists w. split; [exact E|]. rewrite forallb_forall in Hw. split.
    + intros c Hc. apply W, Hw, Hc.
    + intros c t Ec. apply canon_head in Ec. rewrite <- W. congruence.
Qed.
Lemma apart x y : (exists k, user_spec k /\ variant k x) -> system_key y -> canonicalize_key x <> canonicalize_key y.
Proof.
  intros (k & U & Vx) Sy. apply system_variant in Sy as (s & S & Vy).
  destruct (user_system k s U S) as (A & C & D). exact (variants_differ k s x y A C D Vx Vy).
Qed.

(* C80 *)
Lemma good_bad n c : good_name n c <-> ns_eqb n NS_UNDEFINED || bad_name c = false.
Proof.
  unfold good_name, bad_name. destruct c as [|x c].
  - rewrite orb_true_r. split; [tauto|discriminate].
  - cbn [hd_error]. rewrite orb_false_iff. split.
    + intros (A & _ & C). split; [destruct n; [exfalso; apply A; reflexivity|reflexivity..]|]. apply Ascii.eqb_neq. intros ->. apply C. reflexivity.
    + intros (A & C). split; [intros ->; discriminate|]. split; [discriminate|]. intros E. injection E as ->. discriminate C.
Qed.
Lemma accept_set_lemma d o n c : (exists l, kv_set_keys d o n c = Some l) <-> good_name n c.
Proof. rewrite good_bad. unfold kv_set_keys. destruct (ns_eqb n NS_UNDEFINED || bad_name c); split; try discriminate; eauto. intros (l & H); discriminate. Qed.
Lemma accept_get_lemma d o n c a fm fd : (exists l, kv_get_keys d o n c a fm fd = Some l) <-> good_name n c.
Proof. rewrite good_bad. unfold kv_get_keys. destruct (ns_eqb n NS_UNDEFINED || bad_name c); split; try discriminate; eauto. intros (l & H); discriminate. Qed.
Lemma accept_reserve_lemma n c : (exists l, kv_reserve_keys n c = Some l) <-> c <> [] /\ hd_error c <> Some "#"%char.
Proof.
  unfold kv_reserve_keys, bad_name. destruct c as [|x c]; [split; [intros (l & H); discriminate|tauto]|]. cbn [hd_error].
  destruct (Ascii.eqb_spec x C_SYS) as [->|N]; split; eauto.
  - intros (l & H); discriminate.
  - intros (_ & H). exfalso. apply H. reflexivity.
  - intros _. split; [discriminate|]. intros E. injection E as ->. apply N. reflexivity.
Qed.

Definition rec_of (l : option (list bytes)) : bytes := match l with Some (r :: _) => canonicalize_key r | _ => [] end.
Lemma set_rec d o n c : good_name n c -> rec_of (kv_set_keys d o n c) = joined (parts_of (set_spec d o (api_dom n) n c)).
Proof.
  intros H. unfold kv_set_keys. rewrite (proj1 (good_bad n c) H). cbn [rec_of]. rewrite key_tail_lemma by reflexivity. apply canon_joined.
Qed.
Lemma set_clean d o n c : clean_ctx d o -> clean (set_spec d o (api_dom n) n c).
Proof.
  intros (A & C & D). unfold clean. cbn [ks_dom ks_ns_part ks_id_cat ks_id set_spec].
  destruct n; cbn [api_dom get_ns_part ns_eqb opt_no_colon]; rewrite ?or_str; repeat split; auto using opt_str; try nocol; auto using opt_str.
Qed.
Lemma set_distinct_lemma d o n c d' o' n' c' r r' k : clean_ctx d o -> clean_ctx d' o' ->
  (exists l, kv_set_keys d o n c = Some (r :: l)) -> (exists l, kv_set_keys d' o' n' c' = Some (r' :: l)) ->
  stored_as r k -> (stored_as r' k <-> n = n' /\ scope d o n = scope d' o' n' /\ c = c').
Proof.
  intros Hc Hc' (l & E) (l' & E') Hr.
  assert (G : good_name n c) by (apply (accept_set_lemma d o); eauto).
  assert (G' : good_name n' c') by (apply (accept_set_lemma d' o'); eauto).
  pose proof (set_rec d o n c G) as R. pose proof (set_rec d' o' n' c' G') as R'. rewrite E in R. rewrite E' in R'. cbn [rec_of] in R, R'.
  apply stored_canon in Hr. rewrite stored_canon, R', <- Hr, R.
  split.
  - intros J. symmetry in J. apply joined_inj in J; [|apply set_clean; assumption..].
    destruct J as (_ & _ & Jn & Jp & _ & Ji & Jc). cbn [ks_ns ks_ns_part ks_id ks_core set_spec str] in *. subst n'.
    split; [reflexivity|]. split; [|congruence].
    destruct n; cbn [scope get_ns_part ns_eqb] in *; change or_empty with str in *; congruence.
  - intros (<- & S & <-). f_equal. apply same_parts_of. unfold same_parts. cbn [ks_op ks_dom ks_ns ks_ns_part ks_id_cat ks_id ks_core set_spec str].
    destruct n; cbn [scope get_ns_part ns_eqb api_dom] in *; change or_empty with str in *; repeat split; congruence.
Qed.
Lemma get_same_lemma d o n c : good_name n c -> exists r a s g, kv_set_keys d o n c = Some [r; a; s; g] /\
  (forall archive, exists x, kv_get_keys d o n c archive None None = Some [x] /\
     canonicalize_key x = canonicalize_key (if archive =? 1 then a else r)).
Proof.
  intros G. unfold kv_set_keys, kv_get_keys. rewrite (proj1 (good_bad n c) G). do 4 eexists. split; [reflexivity|].
  intros archive. eexists. split; [reflexivity|]. rewrite compose_joined. cbn [ks_extra get_spec].
  replace (parts_of (get_spec d o (api_dom n) n c archive None None)) with (parts_of (set_spec d o (api_dom n) n c)).
  - destruct (archive =? 1).
    + rewrite compose_joined. reflexivity.
    + rewrite key_tail_lemma by reflexivity. reflexivity.
  - apply same_parts_of. unfold same_parts. cbn [ks_op ks_dom ks_ns ks_ns_part ks_id_cat ks_id ks_core get_spec set_spec str].
    destruct n; repeat split.
Qed.
Lemma foreign_lemma d o n c archive fm fd :
  (n = NS_DEVMOD -> fm <> None) ->
  kv_get_keys d o n c archive fm fd =
  kv_get_keys (DevCtx (num_s d) (match fd with Some i => Some i | None => uid_s d end)) (match fm with Some m => m | None => o end) n c archive None None.
Proof.
  intros H1. unfold kv_get_keys. destruct (ns_eqb n NS_UNDEFINED || bad_name c); [reflexivity|].
  destruct n; destruct fm as [m|], fd as [i|]; try reflexivity.
  - specialize (H1 eq_refl). congruence.
Qed.
Lemma disk_lemma d o c devno x r : clean_ctx d o -> no_colon devno -> str (uid_s d) <> devno ->
  part_disk_keys devno c = Some [x] -> (exists l, kv_set_keys d o NS_DEVICE c = Some (r :: l)) -> canonicalize_key x <> canonicalize_key r.
Proof.
  intros Hc Hd N E (l & E'). unfold part_disk_keys in E. destruct (bad_name c) eqn:Eb; [discriminate|]. injection E as <-.
  unfold kv_set_keys in E'. rewrite Eb in E'. cbn [ns_eqb orb] in E'.
  assert (Er : r = skipn 1 (compose_key (set_spec d o (api_dom NS_DEVICE) NS_DEVICE c))) by (injection E'; intros; symmetry; assumption). rewrite Er.
  rewrite key_tail_lemma by reflexivity. rewrite canon_joined, canon_compose. cbn [ks_extra disk_spec].
  rewrite joined_inj; [|repeat split; try (cbn; exact Hd || exact I)|apply (set_clean d o NS_DEVICE), Hc].
  - intros (_ & _ & _ & P & _). cbn [ks_ns_part disk_spec set_spec str get_ns_part] in P. rewrite or_str in P. congruence.
  - cbn. nocol.
Qed.
