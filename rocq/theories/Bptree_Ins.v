(* Insertion into the B+ tree. *)
From Verif Require Import Base Bptree_Model Bptree_Arr Bptree_Proofs.
From Coq Require Import Sorted.

(* occurrences of a key in a list *)
Fixpoint cnt (j : list ascii) (l : list (list ascii)) : nat :=
  match l with [] => 0 | x :: r => (if seq j x then 1 else 0) + cnt j r end.
Lemma cnt_app j a b : cnt j (a ++ b) = cnt j a + cnt j b.
Proof. induction a as [|x a IH]; cbn; auto. rewrite IH. lia. Qed.
Lemma cnt_in j l : 1 <= cnt j l <-> In j l.
Proof.
  induction l as [|x l IH]; cbn; [lia|]. destruct (seq_spec j x) as [->|Hne].
  - split; [auto|lia].
  - rewrite Nat.add_0_l, IH. split; [auto|]. intros [->|]; [congruence|auto].
Qed.
Lemma cnt_zero j l : ~ In j l -> cnt j l = 0.
Proof. rewrite <- cnt_in. lia. Qed.

(* leaf chain after an insertion: unchanged, or one leaf [a] got a new right neighbour [fr] *)
Definition link_ins (l l' : list (N * option N)) (fr : N) : Prop :=
  l' = l \/ exists A a nx B, l = A ++ (a, nx) :: B /\ l' = A ++ (a, Some fr) :: (fr, nx) :: B.
Lemma link_ins_mid P Q l l' fr : link_ins l l' fr -> link_ins (P ++ l ++ Q) (P ++ l' ++ Q) fr.
Proof.
  intros [->|(A & a & nx & B & -> & ->)]; [left; auto|]. right.
  exists (P ++ A), a, nx, (B ++ Q). rewrite <- !app_assoc. auto.
Qed.

Definition parts (x : ires) : list tree := il x :: match isplit x with None => [] | Some (_, rt) => [rt] end.

Record ins_post (o h m : nat) (t : tree) (k : list ascii) (r fr : N) (x : ires) : Prop := {
  ip_wf : forall c, In c (parts x) -> wf o h (match isplit x with None => m | Some _ => minn o h end) c;
  ip_ents : flat_map ents (parts x) = sins k r (ents t);
  ip_sep : match isplit x with None => True | Some (bk, _) => bk = maxk (il x) end;
  ip_links : link_ins (links t) (flat_map links (parts x)) fr;
  ip_nodes : list_sum (map nodes (parts x)) = nodes t + iused x;
  ip_need : needed o t k = Ok (iused x, match isplit x with None => false | Some _ => true end);
  ip_log : exists l1 l2, ilog x = KRef k :: map KRef l1 /\ ilate x = map KUnref l2 /\
     (forall j, cnt j (flat_map seps (parts x)) + cnt j l2 = cnt j (seps t) + cnt j l1) /\
     (forall j, In j l1 \/ In j l2 -> In j (flat_map keys (parts x))) }.

Lemma sins_mid k r A M B : (forall x, In x (map fst A) -> slt x k) -> (forall x, In x (map fst B) -> slt k x) ->
  sins k r (A ++ M ++ B) = A ++ sins k r M ++ B.
Proof.
  intros HA HB. induction A as [|e A IH]; cbn.
  - induction M as [|e M IHM]; cbn.
    + destruct B as [|e B]; auto. cbn. replace (sgt k (fst e)) with false; auto. symmetry. apply sgt_false. right. apply HB. left; auto.
    + destruct (sgt k (fst e)); auto. cbn. f_equal; auto.
  - replace (sgt k (fst e)) with true.
    + f_equal. apply IH. intros; apply HA; right; auto.
    + symmetry. apply sgt_lt. apply HA. left; auto.
Qed.
Lemma sins_keys k r l : forall x, In x (map fst (sins k r l)) <-> x = k \/ In x (map fst l).
Proof.
  induction l as [|e l IH]; cbn; intros x; [intuition congruence|].
  destruct (sgt k (fst e)); cbn; [rewrite IH|]; intuition congruence.
Qed.
Lemma sins_ne k r l : sins k r l <> [].
Proof. destruct l as [|e l]; cbn; [discriminate|]. destruct (sgt k (fst e)); discriminate. Qed.
Lemma sins_last k r l : l <> [] -> (k = last (map fst l) [] \/ slt k (last (map fst l) [])) ->
  SS (map fst l) -> last (map fst (sins k r l)) [] = last (map fst l) [].
Proof.
  induction l as [|e l IH]; intros Hne Hk Hs; [congruence|]. cbn [sins].
  destruct (sgt k (fst e)) eqn:E.
  - apply sgt_lt in E. destruct l as [|e' l].
    + cbn in *. destruct Hk as [->|Hk]; [exfalso; exact (slt_irrefl _ E)|exfalso; exact (slt_asym _ _ E Hk)].
    + cbn [map] in *. apply SS_cons in Hs as [Hs _].
      assert (X : last (map fst (sins k r (e' :: l))) [] = last (fst e' :: map fst l) []) by (apply IH; auto; discriminate).
      destruct (map fst (sins k r (e' :: l))) eqn:F.
      * exfalso. apply (sins_ne k r (e' :: l)). destruct (sins k r (e' :: l)); [auto|discriminate].
      * cbn [last] in *. exact X.
  - cbn [map]. destruct l; cbn; auto.
Qed.

(* leaves *)
Lemma ins_idx_combine k r : forall ks (rs : list N), length ks = length rs -> ~ In k ks ->
  combine (insert_at (ins_idx k ks) k ks) (insert_at (ins_idx k ks) r rs) = sins k r (combine ks rs).
Proof.
  unfold insert_at. induction ks as [|x ks IH]; intros [|y rs] E Hn; cbn [length] in E; try discriminate; [reflexivity|].
  cbn [ins_idx]. destruct (sle x k) eqn:S.
  - apply sle_true in S as [->|S]; [exfalso; apply Hn; left; auto|].
    cbn [firstn skipn app combine sins fst]. replace (sgt k x) with true by (symmetry; apply sgt_lt; auto).
    f_equal. apply IH; [lia|]. intros Hin. apply Hn. right; auto.
  - apply sle_false in S. cbn. replace (sgt k x) with false; auto. symmetry. apply sgt_false. auto.
Qed.
Lemma ins_idx_le k ks : ins_idx k ks <= length ks.
Proof. induction ks as [|x ks IH]; cbn; [lia|]. destruct (sle x k); lia. Qed.

Lemma combine_firstn_skipn {A B} n (a : list A) (b : list B) :
  combine (firstn n a) (firstn n b) ++ combine (skipn n a) (skipn n b) = combine a b.
Proof.
  revert a b; induction n as [|n IH]; intros [|x a] [|y b]; cbn; auto.
  - destruct (skipn n a); auto.
  - f_equal; auto.
Qed.

Lemma nth_last_firstn {A} (l : list A) n d : n < length l -> nth_error l n = Some (last (firstn (S n) l) d).
Proof.
  revert l; induction n as [|n IH]; intros [|x l] H; cbn [length] in H; try lia; auto.
  cbn [nth_error]. rewrite IH by lia. f_equal. cbn [firstn]. destruct l; [cbn in H; lia|]. reflexivity.
Qed.

Lemma keys_of_parts x : forall o h m, (forall c, In c (parts x) -> wf o h m c) ->
  map fst (flat_map ents (parts x)) = flat_map keys (parts x).
Proof.
  intros o h m H. induction (parts x) as [|c l IH]; cbn; auto.
  rewrite map_app, (ents_keys o h m) by (apply H; left; auto). f_equal. apply IH. intros; apply H; right; auto.
Qed.

Lemma ins_leaf_ok o m a nx ks rs k r fr :
  4 <= o -> wf o 0 m (Leaf a nx ks rs) -> ~ In k ks ->
  exists x, ins o (Leaf a nx ks rs) k r fr = Ok x /\ ins_post o 0 m (Leaf a nx ks rs) k r fr x.
Proof.
  intros Ho H Hn. inversion H; subst. pose proof (cut_le (o - 1) ltac:(lia)) as Hcut.
  pose proof (ins_idx_le k ks) as Hidx. cbn [ins].
  destruct (Nat.eqb_spec (length ks) (o - 1)) as [E|E].
  - rewrite !leaf_split_ok by (auto; lia). cbn [obind fst snd].
    set (K := insert_at (ins_idx k ks) k ks). set (R := insert_at (ins_idx k ks) r rs).
    assert (LK : length K = o) by (unfold K; rewrite insert_at_length; lia).
    assert (LR : length R = o) by (unfold R; rewrite insert_at_length; lia).
    set (sp := cut (o - 1)) in *.
    assert (Eg : get (firstn sp K) (sp - 1) = Ok (last (firstn sp K) [])).
    { apply get_some. rewrite nth_error_firstn_if. destruct (Nat.ltb_spec (sp - 1) sp); [|lia].
      rewrite (nth_last_firstn _ _ []) by lia. do 3 f_equal. lia. }
    rewrite Eg. cbn [obind]. eexists; split; [reflexivity|].
    constructor; cbn [parts isplit il ilog ilate iused flat_map map ents links nodes seps app].
    + cbn [In]. intros c [<-|[<-|[]]]; constructor; rewrite ?firstn_length, ?skipn_length; cbn [minn]; fold sp; lia.
    + rewrite app_nil_r. rewrite combine_firstn_skipn. apply ins_idx_combine; auto.
    + reflexivity.
    + right. exists [], a, nx, []. auto.
    + reflexivity.
    + cbn [needed]. destruct (Nat.eqb_spec (length ks) (o - 1)); [reflexivity|lia].
    + exists [], []. repeat split; auto; try tauto. cbn. tauto.
  - rewrite !arr_ins_ok by (auto; lia). cbn [obind]. eexists; split; [reflexivity|].
    constructor; cbn [parts isplit il ilog ilate iused flat_map map ents links nodes seps app].
    + cbn [In]. intros c [<-|[]]. constructor; rewrite !insert_at_length by lia; lia.
    + rewrite app_nil_r. apply ins_idx_combine; auto.
    + auto.
    + left; auto.
    + reflexivity.
    + cbn [needed]. destruct (Nat.eqb_spec (length ks) (o - 1)); [lia|reflexivity].
    + exists [], []. repeat split; auto; try tauto. cbn. tauto.
Qed.

Lemma list_sum_cons a l : list_sum (a :: l) = a + list_sum l.
Proof. reflexivity. Qed.
Lemma list_sum_nil : list_sum [] = 0.
Proof. reflexivity. Qed.
Lemma list_sum_mid A x B : list_sum (map nodes (A ++ x :: B)) = list_sum (map nodes A) + nodes x + list_sum (map nodes B).
Proof. rewrite map_app, list_sum_app. change (list_sum (map nodes (x :: B))) with (nodes x + list_sum (map nodes B)). lia. Qed.

Lemma insert_at_app {A} (a b : list A) x : insert_at (length a) x (a ++ b) = a ++ x :: b.
Proof.
  unfold insert_at. rewrite firstn_app, Nat.sub_diag, firstn_all, skipn_app, Nat.sub_diag, skipn_all. cbn. rewrite app_nil_r. reflexivity.
Qed.
Lemma insert_at_app_S {A} (a b : list A) y x : insert_at (S (length a)) x (a ++ y :: b) = a ++ y :: x :: b.
Proof.
  replace (a ++ y :: b) with ((a ++ [y]) ++ b) by (rewrite <- app_assoc; reflexivity).
  replace (S (length a)) with (length (a ++ [y])) by (rewrite app_length; cbn; lia).
  rewrite insert_at_app, <- app_assoc. reflexivity.
Qed.

(* the separators of a list cut in two *)
Lemma seps_of_cut cs n : 1 <= n -> n < length cs ->
  exists L0 l R, cs = L0 ++ l :: R /\ R <> [] /\ length L0 = n - 1 /\
    firstn n cs = L0 ++ [l] /\ skipn n cs = R /\
    firstn (n - 1) (seps_of cs) = seps_of (L0 ++ [l]) /\ nth_error (seps_of cs) (n - 1) = Some (maxk l) /\
    skipn n (seps_of cs) = seps_of R.
Proof.
  intros H1 H2.
  assert (Hl : exists L0 l, firstn n cs = L0 ++ [l] /\ length L0 = n - 1).
  { destruct (exists_last (l := firstn n cs)) as (L0 & l & E).
    - intros E. apply (f_equal (@length tree)) in E. rewrite firstn_length in E. cbn in E. lia.
    - exists L0, l. split; auto. apply (f_equal (@length tree)) in E. rewrite firstn_length, app_length in E. cbn in E. lia. }
  destruct Hl as (L0 & l & E & EL). set (R := skipn n cs).
  assert (Ecs : cs = L0 ++ l :: R).
  { rewrite <- (firstn_skipn n cs). fold R. rewrite E, <- app_assoc. reflexivity. }
  assert (HR : R <> []).
  { intros F. unfold R in F. apply (f_equal (@length tree)) in F. rewrite skipn_length in F. cbn in F. lia. }
  exists L0, l, R. do 5 (split; [auto|]).
  rewrite Ecs, seps_of_app. destruct R as [|r0 R']; [congruence|]. remember (r0 :: R') as R1.
  repeat split.
  - rewrite seps_of_app, app_nil_r, <- EL.
    rewrite firstn_app, map_length, Nat.sub_diag. cbn. rewrite app_nil_r. apply firstn_all2. rewrite map_length. lia.
  - rewrite nth_error_app2 by (rewrite map_length; lia). rewrite map_length, EL, Nat.sub_diag. reflexivity.
  - rewrite skipn_app, map_length, EL. replace (n - (n - 1)) with 1 by lia. cbn [skipn].
    rewrite skipn_all2 by (rewrite map_length; lia). reflexivity.
Qed.

Lemma ins_ok o k r fr : 4 <= o -> forall h m t, wf o h m t -> 1 <= m -> SS (keys t) -> ~ In k (keys t) ->
  exists x, ins o t k r fr = Ok x /\ ins_post o h m t k r fr x.
Proof.
  intros Ho. induction h as [|h IH]; intros m t H Hm Hs Hn; inv_wf H.
  - apply ins_leaf_ok; auto.
  - assert (Hkne : forall c, In c cs -> keys c <> []).
    { intros c Hin. eapply keys_ne; eauto. left. apply minn_pos; auto. }
    destruct (descend k cs) as (A & c & B & -> & HA & H5 & H6 & H7); auto.
    { destruct cs; discriminate. }
    assert (Hin : In c (A ++ c :: B)) by (apply in_app_iff; right; left; auto).
    assert (Hs' := Hs). cbn in Hs'. rewrite flat_map_app in Hs'. cbn in Hs'.
    apply SS_app in Hs' as (HsA & Hs' & HsX). apply SS_app in Hs' as (Hsc & HsB & HsY).
    assert (Hnc : ~ In k (keys c)).
    { intros X. apply Hn. cbn. apply in_flat_map. eauto. }
    destruct (IH _ c (Hc c Hin) (minn_pos o h Ho) Hsc Hnc) as (x & Ex & P).
    rewrite ins_node, <- HA, get_mid. cbn [obind]. rewrite Ex. cbn [obind].
    assert (Hmin : 1 <= minn o h) by (apply minn_pos; auto).
    assert (Hpw : forall c', In c' (parts x) -> wf o h (minn o h) c').
    { intros c' Hc'. pose proof (ip_wf _ _ _ _ _ _ _ _ P c' Hc') as W. destruct (isplit x); auto. }
    assert (Hpk : map fst (flat_map ents (parts x)) = flat_map keys (parts x)) by (eapply keys_of_parts; eauto).
    assert (Hpne : forall c', In c' (parts x) -> keys c' <> []).
    { intros c' Hc'. eapply keys_ne; eauto. }
    (* new entries of this node *)
    assert (Hents : flat_map ents (A ++ parts x ++ B) = sins k r (ents (Node (seps_of (A ++ c :: B)) (A ++ c :: B)))).
    { cbn [ents]. rewrite !flat_map_app. cbn [flat_map]. rewrite (ip_ents _ _ _ _ _ _ _ _ P).
      symmetry. apply sins_mid.
      - intros y Hy. apply H5. clear -Hy Hc. induction A as [|a A IHA]; cbn in *; auto.
        rewrite map_app, (ents_keys o h (minn o h)) in Hy by (apply Hc; left; auto).
        apply in_app_iff. apply in_app_iff in Hy as [|Hy]; auto.
      - intros y Hy. apply H7. assert (HcB : forall b, In b B -> wf o h (minn o h) b).
        { intros b Hb'. apply Hc. apply in_app_iff. right; right; auto. }
        clear -Hy HcB. induction B as [|a B IHB]; cbn in *; auto.
        rewrite map_app, (ents_keys o h (minn o h)) in Hy by (apply HcB; left; auto).
        apply in_app_iff. apply in_app_iff in Hy as [|Hy]; auto. }
    (* the separators of the new child list *)
    assert (Hlast : forall q, last (parts x) (Leaf 0 None [] []) = q -> B <> [] -> maxk q = maxk c).
    { intros q Hq HB. specialize (H6 HB).
      assert (X : last (map fst (flat_map ents (parts x))) [] = last (map fst (ents c)) []).
      { rewrite (ip_ents _ _ _ _ _ _ _ _ P). apply sins_last.
        - intros F. apply (Hkne c Hin). rewrite <- (ents_keys o h (minn o h)) by auto. rewrite F. reflexivity.
        - rewrite (ents_keys o h (minn o h)) by auto. exact H6.
        - rewrite (ents_keys o h (minn o h)) by auto. exact Hsc. }
      rewrite Hpk in X. rewrite (ents_keys o h (minn o h) c) in X by auto. unfold maxk. rewrite <- X. subst q.
      unfold parts in *. destruct (isplit x) as [[bk rt]|]; cbn [flat_map last].
      - rewrite app_nil_r. symmetry. apply last_app_ne. apply Hpne. right; left; auto.
      - rewrite app_nil_r. reflexivity. }
    assert (Hneed : needed o (Node (seps_of (A ++ c :: B)) (A ++ c :: B)) k =
              if match isplit x with None => false | Some _ => true end
              then if length (seps_of (A ++ c :: B)) =? o - 1 then Ok (S (iused x), true) else Ok (iused x, false)
              else Ok (iused x, false)).
    { rewrite needed_node, <- HA, get_mid. cbn [obind]. rewrite (ip_need _ _ _ _ _ _ _ _ P). cbn [obind fst snd].
      destruct (isplit x); reflexivity. }
    destruct (ip_log _ _ _ _ _ _ _ _ P) as (l1 & l2 & Elog & Elate & Hcnt & Hkin).
    unfold ins_parent. rewrite list_set_mid.
    pose proof (seps_of_length (A ++ c :: B)) as Hsl. rewrite app_length in Hsl, Hlen. cbn [length] in Hsl, Hlen.
    destruct (isplit x) as [[bk rt]|] eqn:Esp.
    + (* the child was split *)
      pose proof (ip_sep _ _ _ _ _ _ _ _ P) as Hbk. rewrite Esp in Hbk.
      set (cs2 := A ++ il x :: rt :: B).
      assert (Eparts : parts x = [il x; rt]) by (unfold parts; rewrite Esp; reflexivity).
      assert (Hks2 : insert_at (length A) bk (seps_of (A ++ c :: B)) = seps_of cs2).
      { unfold cs2. rewrite !seps_of_app.
        rewrite <- (map_length maxk A), insert_at_app. f_equal. rewrite Hbk. f_equal.
        rewrite seps_of_cons. destruct B as [|b B]; auto. f_equal. symmetry. apply Hlast; [|discriminate].
        rewrite Eparts. reflexivity. }
      assert (Hcs2 : insert_at (S (length A)) rt (A ++ il x :: B) = cs2) by apply insert_at_app_S.
      assert (Hwf2 : forall c', In c' cs2 -> wf o h (minn o h) c').
      { intros c' Hc'. unfold cs2 in Hc'. apply in_app_iff in Hc' as [Hc'|[<-|[<-|Hc']]].
        - apply Hc, in_app_iff; auto.
        - apply Hpw. rewrite Eparts. left; auto.
        - apply Hpw. rewrite Eparts. right; left; auto.
        - apply Hc, in_app_iff. right; right; auto. }
      assert (Lcs2 : length cs2 = S (S (length A + length B))).
      { unfold cs2. rewrite app_length. cbn. lia. }
      rewrite Eparts in *. cbn [flat_map map] in *.
      destruct (Nat.ltb_spec (length (seps_of (A ++ c :: B))) (o - 1)) as [Lt|Ge].
      * rewrite !arr_ins_ok by (rewrite ?app_length; cbn [length]; lia). cbn [obind].
        rewrite Hks2, Hcs2. eexists; split; [reflexivity|].
        constructor; unfold parts; cbn [isplit il ilog ilate iused flat_map map].
        -- intros c' [<-|[]]. pose proof (seps_of_length cs2). constructor; auto; lia.
        -- rewrite app_nil_r. exact Hents.
        -- auto.
        -- rewrite app_nil_r. cbn [links]. unfold cs2. rewrite !flat_map_app. cbn [flat_map].
           pose proof (link_ins_mid (flat_map links A) (flat_map links B) _ _ _ (ip_links _ _ _ _ _ _ _ _ P)) as X.
           rewrite Eparts in X. cbn [flat_map] in X. rewrite app_nil_r, <- !app_assoc in X. exact X.
        -- rewrite ?list_sum_cons, ?list_sum_nil. cbn [nodes]. unfold cs2.
           change (il x :: rt :: B) with ([il x; rt] ++ B). rewrite app_assoc, map_app, list_sum_app, map_app, list_sum_app, list_sum_mid.
           pose proof (ip_nodes _ _ _ _ _ _ _ _ P) as X. rewrite Eparts in X. cbn [map] in X |- *. rewrite ?list_sum_cons, ?list_sum_nil in *. lia.
        -- rewrite Hneed. destruct (Nat.eqb_spec (length (seps_of (A ++ c :: B))) (o - 1)); [lia|reflexivity].
        -- exists (l1 ++ [bk]), l2. rewrite Elog, map_app. repeat split; auto.
           ++ intros j. rewrite app_nil_r. cbn [seps]. specialize (Hcnt j).
              rewrite <- Hks2. unfold cs2. rewrite !cnt_app, !flat_map_app, !cnt_app. cbn [flat_map]. rewrite !cnt_app in *.
              rewrite seps_of_app. rewrite <- (map_length maxk A), insert_at_app, !cnt_app. cbn [cnt]. cbn [cnt] in Hcnt. lia.
           ++ intros j Hj. rewrite app_nil_r in *. cbn [keys]. unfold cs2. rewrite flat_map_app. cbn [flat_map].
              apply in_app_iff. right. rewrite app_assoc. apply in_app_iff. left.
              rewrite in_app_iff in Hj. destruct Hj as [[Hj|[<-|[]]]|Hj]; [apply Hkin; auto| |apply Hkin; auto].
              rewrite Hbk. apply in_app_iff. left. apply maxk_in, Hpne. left; auto.
      * destruct (node_split_ok o (seps_of (A ++ c :: B)) (A ++ il x :: B) (length A) bk rt) as (bkp & Enth & Esplit); try lia.
        { rewrite app_length; cbn; lia. }
        rewrite Esplit. cbn [obind]. rewrite Hks2, Hcs2 in *. clear Esplit.
        pose proof (cut_le o ltac:(lia)) as Hcut.
        destruct (seps_of_cut cs2 (cut o)) as (L0 & l & R & Ecs & HR & EL0 & Ef & Es & Ek & En & Er); [lia|lia|].
        rewrite Ef, Es, Ek, Er in *. rewrite Enth in En. injection En as ->.
        assert (LR : length R = S o - cut o).
        { pose proof Lcs2 as X. rewrite Ecs, app_length in X. cbn [length] in X. lia. }
        assert (Hlne : keys l <> []).
        { eapply (keys_ne o h Ho (minn o h)); [|left; exact Hmin]. apply Hwf2. rewrite Ecs. apply in_app_iff. right; left; auto. }
        eexists; split; [reflexivity|].
        constructor; unfold parts; cbn [isplit il ilog ilate iused flat_map map].
        -- intros c' [<-|[<-|[]]].
           ++ pose proof (seps_of_length (L0 ++ [l])) as X. rewrite app_length in X. cbn [length] in X.
              constructor; auto; rewrite ?app_length; cbn [length minn]; try lia.
              intros c' Hc'. apply Hwf2. rewrite Ecs. apply in_app_iff. apply in_app_iff in Hc' as [|[->|[]]]; auto. right; left; auto.
           ++ pose proof (seps_of_length R) as X.
              constructor; auto; cbn [minn]; try lia.
              intros c' Hc'. apply Hwf2. rewrite Ecs. apply in_app_iff. right; right; auto.
        -- rewrite app_nil_r. cbn [ents]. rewrite <- flat_map_app, <- app_assoc. cbn [app]. rewrite <- Ecs. exact Hents.
        -- symmetry. apply maxk_node. exact Hlne.
        -- rewrite app_nil_r. cbn [links]. rewrite <- flat_map_app, <- app_assoc. cbn [app]. rewrite <- Ecs. unfold cs2. rewrite !flat_map_app. cbn [flat_map].
           pose proof (link_ins_mid (flat_map links A) (flat_map links B) _ _ _ (ip_links _ _ _ _ _ _ _ _ P)) as X.
           rewrite Eparts in X. cbn [flat_map] in X. rewrite app_nil_r, <- !app_assoc in X. exact X.
        -- rewrite ?list_sum_cons, ?list_sum_nil. cbn [nodes].
           pose proof (ip_nodes _ _ _ _ _ _ _ _ P) as X. rewrite Eparts in X. cbn [map] in X. rewrite ?list_sum_cons, ?list_sum_nil in X.
           assert (Y : list_sum (map nodes (L0 ++ [l])) + list_sum (map nodes R) = list_sum (map nodes A) + (nodes (il x) + nodes rt) + list_sum (map nodes B)).
           { rewrite <- list_sum_app, <- map_app, <- app_assoc. cbn [app]. rewrite <- Ecs. unfold cs2. rewrite map_app, list_sum_app. cbn [map]. rewrite !list_sum_cons. lia. }
           rewrite (list_sum_mid A c B). lia.
        -- rewrite Hneed. destruct (Nat.eqb_spec (length (seps_of (A ++ c :: B))) (o - 1)); [reflexivity|lia].
        -- exists (l1 ++ [bk]), (maxk l :: l2). rewrite Elog, Elate, map_app. repeat split; auto.
           ++ intros j. rewrite app_nil_r. cbn [seps]. specialize (Hcnt j).
              assert (Y : cnt j (flat_map seps (L0 ++ [l])) + cnt j (flat_map seps R) =
                          cnt j (flat_map seps A) + (cnt j (seps (il x)) + cnt j (seps rt)) + cnt j (flat_map seps B)).
              { rewrite <- cnt_app, <- flat_map_app, <- app_assoc. cbn [app]. rewrite <- Ecs. unfold cs2.
                rewrite flat_map_app. cbn [flat_map]. rewrite !cnt_app. lia. }
              assert (Z : cnt j (seps_of (L0 ++ [l])) + (if seq j (maxk l) then 1 else 0) + cnt j (seps_of R) =
                          cnt j (seps_of (A ++ c :: B)) + (if seq j bk then 1 else 0)).
              { transitivity (cnt j (seps_of cs2)).
                - rewrite Ecs, !seps_of_app, app_nil_r. destruct R; [congruence|]. rewrite cnt_app. cbn [cnt]. lia.
                - rewrite <- Hks2, seps_of_app. rewrite <- (map_length maxk A), insert_at_app, !cnt_app. cbn [cnt]. lia. }
              rewrite !cnt_app. cbn [cnt]. rewrite !flat_map_app, !cnt_app in *. cbn [flat_map] in *. rewrite !cnt_app in *. cbn [cnt] in *. lia.
           ++ intros j Hj. rewrite app_nil_r in *. cbn [keys]. rewrite <- flat_map_app, <- app_assoc. cbn [app]. rewrite <- Ecs.
              assert (Hsub : forall q, In q (keys (il x) ++ keys rt) -> In q (flat_map keys cs2)).
              { intros q Hq. unfold cs2. rewrite flat_map_app. cbn [flat_map]. apply in_app_iff. right. rewrite app_assoc. apply in_app_iff; auto. }
              rewrite in_app_iff in Hj. destruct Hj as [[Hj|[<-|[]]]|[<-|Hj]]; [apply Hsub, Hkin; auto| | |apply Hsub, Hkin; auto].
              ** apply Hsub. rewrite Hbk. apply in_app_iff. left. apply maxk_in, Hpne. left; auto.
              ** rewrite Ecs. apply in_flat_map. exists l. split; [apply in_app_iff; right; left; auto|]. apply maxk_in; auto.
    + (* the child was not split *)
      assert (Eparts : parts x = [il x]) by (unfold parts; rewrite Esp; reflexivity).
      eexists; split; [reflexivity|].
      rewrite Eparts in *. cbn [flat_map map] in *.
      assert (Hks2 : seps_of (A ++ c :: B) = seps_of (A ++ il x :: B)).
      { rewrite !seps_of_app. f_equal. destruct B as [|b B]; auto. f_equal. symmetry. apply Hlast; [reflexivity|discriminate]. }
      constructor; unfold parts; cbn [isplit il ilog ilate iused flat_map map].
      * intros c' [<-|[]]. constructor; auto.
        -- rewrite app_length; cbn; lia.
        -- intros c' Hc'. apply in_app_iff in Hc' as [Hc'|[<-|Hc']].
           ++ apply Hc, in_app_iff; auto.
           ++ apply Hpw. left; auto.
           ++ apply Hc, in_app_iff. right; right; auto.
      * rewrite app_nil_r. exact Hents.
      * auto.
      * rewrite app_nil_r. cbn [links]. rewrite !flat_map_app. cbn [flat_map].
        pose proof (link_ins_mid (flat_map links A) (flat_map links B) _ _ _ (ip_links _ _ _ _ _ _ _ _ P)) as X.
        rewrite Eparts in X. cbn [flat_map] in X. rewrite app_nil_r in X. exact X.
      * rewrite ?list_sum_cons, ?list_sum_nil. cbn [nodes]. rewrite !list_sum_mid.
        pose proof (ip_nodes _ _ _ _ _ _ _ _ P) as X. rewrite Eparts in X. cbn [map] in X. rewrite ?list_sum_cons, ?list_sum_nil in X. lia.
      * exact Hneed.
      * exists l1, l2. repeat split; auto.
        -- intros j. rewrite app_nil_r. cbn [seps]. specialize (Hcnt j). rewrite !cnt_app, !flat_map_app, !cnt_app. cbn [flat_map].
           rewrite !cnt_app in *. cbn [cnt] in Hcnt. lia.
        -- intros j Hj. rewrite app_nil_r in *. cbn [keys]. rewrite flat_map_app. cbn [flat_map].
           apply in_app_iff. right. apply in_app_iff. left. apply Hkin; auto.
Qed.
