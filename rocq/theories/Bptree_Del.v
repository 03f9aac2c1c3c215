(* Deletion from the B+ tree. *)
From Verif Require Import Base Bptree_Model Bptree_Arr Bptree_Proofs Bptree_Ins.
From Coq Require Import Sorted.

(* key reference counts along a log: a key whose count reached 0 may not be used any more *)
Definition fadd (f : list ascii -> nat) (k : list ascii) : list ascii -> nat := fun j => f j + (if seq j k then 1 else 0).
Definition fsub (f : list ascii -> nat) (k : list ascii) : list ascii -> nat := fun j => f j - (if seq j k then 1 else 0).
Fixpoint srep (l : list kev) (f f' : list ascii -> nat) : Prop :=
  match l with
  | [] => forall j, f j = f' j
  | KRef k :: r => 1 <= f k /\ srep r (fadd f k) f'
  | KUnref k :: r => 1 <= f k /\ srep r (fsub f k) f'
  end.
Lemma srep_ext l : forall f f' g g', srep l f f' -> (forall j, f j = g j) -> (forall j, f' j = g' j) -> srep l g g'.
Proof.
  induction l as [|[k|k] l IH]; cbn; intros f f' g g' H E E'.
  - intros j. rewrite <- E, <- E'. auto.
  - rewrite <- E. destruct H as [H1 H2]. split; auto. eapply IH; eauto. intros j. unfold fadd. rewrite E; auto.
  - rewrite <- E. destruct H as [H1 H2]. split; auto. eapply IH; eauto. intros j. unfold fsub. rewrite E; auto.
Qed.
Lemma srep_frame l g : forall f f', srep l f f' -> srep l (fun j => f j + g j) (fun j => f' j + g j).
Proof.
  induction l as [|[k|k] l IH]; cbn; intros f f' H.
  - intros j. rewrite H; auto.
  - destruct H as [H1 H2]. split; [lia|]. eapply srep_ext; [apply IH, H2| |]; intros j; cbn; unfold fadd; lia.
  - destruct H as [H1 H2]. split; [lia|]. eapply srep_ext; [apply IH, H2| |]; intros j; cbn; unfold fsub; auto.
    destruct (seq_spec j k) as [->|]; lia.
Qed.
Lemma srep_app a : forall b f g h, srep a f g -> srep b g h -> srep (a ++ b) f h.
Proof.
  induction a as [|[k|k] a IH]; cbn; intros b f g h H1 H2.
  - eapply srep_ext; [exact H2| |]; intros; auto.
  - destruct H1; split; [|eapply IH]; eauto.
  - destruct H1; split; [|eapply IH]; eauto.
Qed.

(* leaf chain after a deletion: leaves may have been merged into their left neighbours *)
Inductive link_del (l : list (N * option N)) : list (N * option N) -> Prop :=
| ld_refl : link_del l l
| ld_step A a na b nb B : link_del l (A ++ (a, na) :: (b, nb) :: B) -> link_del l (A ++ (a, nb) :: B).
Lemma link_del_mid P Q l l' : link_del l l' -> link_del (P ++ l ++ Q) (P ++ l' ++ Q).
Proof.
  induction 1 as [|A a na b nb B H IH]; [constructor|].
  replace (P ++ (A ++ (a, nb) :: B) ++ Q) with ((P ++ A) ++ (a, nb) :: (B ++ Q)) by (rewrite <- !app_assoc; reflexivity).
  apply (ld_step _ (P ++ A) a na b nb (B ++ Q)). rewrite <- !app_assoc in *. exact IH.
Qed.
Lemma link_del_trans l m n : link_del l m -> link_del m n -> link_del l n.
Proof. intros H1 H2. induction H2; auto. eapply ld_step; eauto. Qed.

Lemma seps_of_app2 L c R : R <> [] -> seps_of ((L ++ [c]) ++ R) = seps_of (L ++ [c]) ++ maxk c :: seps_of R.
Proof.
  intros H. rewrite <- app_assoc. cbn [app]. rewrite !seps_of_app, app_nil_r. destruct R; [congruence|]. reflexivity.
Qed.

Lemma find_in_mid {A} (p : A -> bool) a y b : (forall x, In x a -> p x = false) -> p y = true -> find_in p (a ++ y :: b) = length a.
Proof.
  intros H Hy. induction a as [|x a IH]; cbn.
  - rewrite Hy. reflexivity.
  - rewrite H by (left; auto). f_equal. apply IH. intros; apply H; right; auto.
Qed.
Lemma remove_at_mid {A} (a : list A) x b : remove_at (length a) (a ++ x :: b) = a ++ b.
Proof.
  unfold remove_at. rewrite firstn_app, Nat.sub_diag, firstn_all. cbn [firstn]. rewrite app_nil_r. f_equal.
  rewrite skipn_app, skipn_all2 by lia. replace (S (length a) - length a) with 1 by lia. reflexivity.
Qed.

Lemma combine_app_eq {A B} : forall (a : list A) (b : list B) a' b', length a = length b ->
  combine (a ++ a') (b ++ b') = combine a b ++ combine a' b'.
Proof. induction a; intros [|y b] a' b' E; cbn in *; try discriminate; auto. f_equal; auto. Qed.


Record mpost (o h : nat) (l r t : tree) (lg : list kev) : Prop := {
  mp_wf : wf o h (minn o h) t;
  mp_ents : ents t = ents l ++ ents r;
  mp_keys : keys t = keys l ++ keys r;
  mp_links : link_del (links l ++ links r) (links t);
  mp_nodes : S (nodes t) = nodes l + nodes r;
  mp_log : (lg = [] /\ forall j, cnt j (seps t) = cnt j (seps l) + cnt j (seps r)) \/
           (lg = [KRef (maxk l)] /\ forall j, cnt j (seps t) = cnt j (seps l) + cnt j (seps r) + if seq j (maxk l) then 1 else 0) }.

Arguments mp_wf {o h l r t lg}.
Arguments mp_ents {o h l r t lg}.
Arguments mp_keys {o h l r t lg}.
Arguments mp_links {o h l r t lg}.
Arguments mp_nodes {o h l r t lg}.
Arguments mp_log {o h l r t lg}.

Lemma merge_ok o h (Ho : 4 <= o) ml mr l r : wf o h ml l -> wf o h mr r ->
  num_keys l + num_keys r < capacity o l -> (minn o h <= num_keys l \/ minn o h <= num_keys r) ->
  exists t lg, merge o l r (maxk l) = Ok (t, lg) /\ mpost o h l r t lg.
Proof.
  intros Wl Wr Hc Hm. inversion Wl as [? a nx ks rs Hlen Hb|h0 ? ks cs Hlen Hb Hcc Hks]; subst;
    inversion Wr as [? a' nx' ks' rs' Hlen' Hb'|? ? ks' cs' Hlen' Hb' Hcc' Hks']; subst;
    cbn [num_keys capacity is_leaf merge] in *.
  - destruct (Nat.leb_spec (length ks + length ks') (o - 1)); [|lia]. do 2 eexists. split; [reflexivity|]. constructor.
    + constructor; rewrite !app_length; lia.
    + cbn [ents]. apply (combine_app_eq ks rs); auto.
    + reflexivity.
    + apply (ld_step _ [] a nx a' nx' []). constructor.
    + reflexivity.
    + left. auto.
  - destruct (Nat.leb_spec (length (seps_of cs) + 1 + length (seps_of cs')) (o - 1)); [|lia]. do 2 eexists. split; [reflexivity|].
    destruct (exists_last (l := cs)) as (L & c & ->); [destruct cs; discriminate|].
    assert (Hcs' : cs' <> []) by (destruct cs'; discriminate).
    assert (Hcne : keys c <> []).
    { eapply (keys_ne o h0 Ho (minn o h0)); [|left; apply minn_pos; auto]. apply Hcc. apply in_app_iff; right; left; auto. }
    assert (Em : maxk (Node (seps_of (L ++ [c])) (L ++ [c])) = maxk c) by (apply maxk_node; auto).
    rewrite Em. constructor.
    + constructor.
      * rewrite !app_length in *. cbn [length] in *. lia.
      * rewrite app_length. cbn [length]. cbn [minn] in *. lia.
      * intros d Hd. apply in_app_iff in Hd as [|]; auto.
      * symmetry. apply seps_of_app2; auto.
    + cbn [ents]. apply flat_map_app.
    + cbn [keys]. apply flat_map_app.
    + cbn [links]. rewrite <- flat_map_app. constructor.
    + cbn [nodes]. rewrite map_app, list_sum_app. lia.
    + right. rewrite Em. split; auto. intros j. cbn [seps]. rewrite !flat_map_app, !cnt_app. cbn [cnt]. lia.
Qed.

Record rpost (o h : nat) (l r l' r' : tree) (sep : list ascii) (lg : list kev) : Prop := {
  rp_wfl : wf o h (minn o h) l';
  rp_wfr : wf o h (minn o h) r';
  rp_ents : ents l' ++ ents r' = ents l ++ ents r;
  rp_keys : keys l' ++ keys r' = keys l ++ keys r;
  rp_sep : sep = maxk l';
  rp_links : links l' ++ links r' = links l ++ links r;
  rp_nodes : nodes l' + nodes r' = nodes l + nodes r;
  rp_log : (lg = [] /\ forall j, cnt j (seps l') + cnt j (seps r') + (if seq j sep then 1 else 0) =
                                 cnt j (seps l) + cnt j (seps r) + (if seq j (maxk l) then 1 else 0)) \/
           (lg = [KRef sep; KUnref (maxk l)] /\ forall j, cnt j (seps l') + cnt j (seps r') = cnt j (seps l) + cnt j (seps r)) }.

Arguments rp_wfl {o h l r l' r' sep lg}.
Arguments rp_wfr {o h l r l' r' sep lg}.
Arguments rp_ents {o h l r l' r' sep lg}.
Arguments rp_keys {o h l r l' r' sep lg}.
Arguments rp_sep {o h l r l' r' sep lg}.
Arguments rp_links {o h l r l' r' sep lg}.
Arguments rp_nodes {o h l r l' r' sep lg}.
Arguments rp_log {o h l r l' r' sep lg}.

Lemma last_snoc_nth {A} (l : list A) n : length l = S n -> exists l0 x, l = l0 ++ [x] /\ length l0 = n.
Proof.
  intros H. destruct (exists_last (l := l)) as (l0 & x & ->); [intros ->; discriminate|].
  exists l0, x. split; auto. rewrite app_length in H. cbn in H. lia.
Qed.
Lemma firstn_snoc {A} (l : list A) x : firstn (length l) (l ++ [x]) = l.
Proof. rewrite firstn_app, Nat.sub_diag, firstn_all. cbn. apply app_nil_r. Qed.
Lemma insert_at_0 {A} (x : A) l : insert_at 0 x l = x :: l.
Proof. reflexivity. Qed.
Lemma remove_at_0 {A} (x : A) l : remove_at 0 (x :: l) = l.
Proof. reflexivity. Qed.

Lemma redistribute_ok o h (Ho : 4 <= o) (fl : bool) ml mr l r : wf o h ml l -> wf o h mr r ->
  (if fl then minn o h < num_keys l /\ minn o h <= S (num_keys r) /\ num_keys r < o - 1
   else minn o h < num_keys r /\ minn o h <= S (num_keys l) /\ num_keys l < o - 1) ->
  exists l' sep r' lg, redistribute o l r fl (maxk l) = Ok (l', sep, r', lg) /\ rpost o h l r l' r' sep lg.
Proof.
  intros Wl Wr Hc. pose proof (minn_pos o h Ho) as Hmp.
  inversion Wl as [? a nx ks rs Hlen Hb|h0 ? ks cs Hlen Hb Hcc Hks]; subst;
    inversion Wr as [? a' nx' ks' rs' Hlen' Hb'|? ? ks' cs' Hlen' Hb' Hcc' Hks']; subst;
    cbn [num_keys redistribute] in *; destruct fl.
  - (* leaf, from the left *)
    destruct (last_snoc_nth ks (length ks - 1)) as (k0 & kx & -> & Lk); [lia|].
    destruct (last_snoc_nth rs (length rs - 1)) as (r0 & rx & -> & Lr); [lia|].
    rewrite app_length in *. cbn [length] in *. rewrite app_length in *. cbn [length] in *.
    replace (length k0 + 1 - 1) with (length k0) by lia.
    assert (E1 : get (r0 ++ [rx]) (length k0) = Ok rx) by (replace (length k0) with (length r0) by lia; apply get_mid).
    assert (E2 : firstn (length k0) (r0 ++ [rx]) = r0) by (replace (length k0) with (length r0) by lia; apply firstn_snoc).
    rewrite get_mid. cbn [obind]. rewrite E1. cbn [obind].
    destruct (Nat.ltb_spec (length k0 + 1) 2); [lia|].
    assert (Es : get (k0 ++ [kx]) (length k0 + 1 - 2) = Ok (last k0 [])).
    { apply get_some. rewrite nth_error_app1 by lia. rewrite (nth_last_firstn _ _ []) by lia. do 2 f_equal.
      apply firstn_all2. lia. }
    rewrite Es. cbn [obind]. rewrite !arr_ins_ok by lia. cbn [obind]. rewrite !insert_at_0.
    rewrite firstn_snoc, E2.
    do 4 eexists. split; [reflexivity|]. constructor.
    + constructor; lia.
    + constructor; cbn [length]; lia.
    + cbn [ents]. rewrite (combine_app_eq k0 r0) by lia. rewrite <- app_assoc. reflexivity.
    + cbn [keys]. rewrite <- app_assoc. reflexivity.
    + reflexivity.
    + reflexivity.
    + reflexivity.
    + right. unfold maxk at 1. cbn [keys]. rewrite last_last. split; auto.
      unfold maxk. cbn [keys]. rewrite last_last. reflexivity.
  - (* leaf, from the right *)
    destruct ks' as [|kx k0]; [cbn in *; lia|]. destruct rs' as [|rx r0]; [cbn in *; lia|].
    cbn [get nth_error obind].
    destruct (Nat.ltb_spec (length ks) (o - 1)); [|lia]. cbn [length] in *.
    rewrite !arr_del_ok by (cbn [length]; lia). cbn [obind]. rewrite !remove_at_0.
    do 4 eexists. split; [reflexivity|]. constructor.
    + constructor; rewrite ?app_length; cbn [length]; lia.
    + constructor; lia.
    + cbn [ents]. rewrite (combine_app_eq ks rs) by lia. rewrite <- app_assoc. reflexivity.
    + cbn [keys]. rewrite <- app_assoc. reflexivity.
    + unfold maxk. cbn [keys]. rewrite last_last. reflexivity.
    + reflexivity.
    + reflexivity.
    + right. split; auto.
  - (* node, from the left *)
    rewrite !seps_of_length in *.
    destruct (exists_last (l := cs)) as (L & lc & ->); [destruct cs; discriminate|].
    rewrite app_length in *. cbn [length] in *.
    destruct (exists_last (l := L)) as (L0 & c0 & ->); [intros ->; cbn in *; lia|].
    rewrite app_length in *. cbn [length] in *.
    replace (length L0 + 1 + 1 - 1) with (length (L0 ++ [c0])) by (rewrite app_length; cbn; lia).
    rewrite get_mid. cbn [obind].
    assert (Eseps : seps_of ((L0 ++ [c0]) ++ [lc]) = seps_of (L0 ++ [c0]) ++ [maxk c0]).
    { rewrite seps_of_app2 by discriminate. reflexivity. }
    rewrite Eseps.
    assert (Ls : length (seps_of (L0 ++ [c0])) = length (L0 ++ [c0]) - 1) by apply seps_of_length.
    rewrite <- Ls. rewrite get_mid. cbn [obind].
    rewrite arr_ins_ok by (rewrite ?seps_of_length; lia). cbn [obind].
    rewrite arr_ins_ok by lia. cbn [obind]. rewrite !insert_at_0.
    rewrite firstn_snoc, firstn_snoc.
    assert (Hne : forall d, In d ((L0 ++ [c0]) ++ [lc]) -> keys d <> []).
    { intros d Hd. eapply (keys_ne o h0 Ho (minn o h0)); [auto|left; apply minn_pos; auto]. }
    assert (Em : maxk (Node (seps_of (L0 ++ [c0]) ++ [maxk c0]) ((L0 ++ [c0]) ++ [lc])) = maxk lc).
    { apply maxk_node, Hne, in_app_iff. right; left; auto. }
    rewrite Em. do 4 eexists. split; [reflexivity|]. constructor.
    + constructor; auto.
      * rewrite seps_of_length, app_length; cbn [length]; lia.
      * rewrite seps_of_length, app_length; cbn [length]; lia.
      * intros d Hd. apply Hcc, in_app_iff; auto.
    + constructor; cbn [length].
      * rewrite seps_of_length. lia.
      * rewrite seps_of_length. lia.
      * intros d [<-|Hd]; auto. apply Hcc, in_app_iff. right; left; auto.
      * rewrite seps_of_cons. destruct cs'; [cbn in *; lia|reflexivity].
    + cbn [ents]. rewrite (flat_map_app _ (L0 ++ [c0])). cbn [flat_map]. rewrite app_nil_r, <- app_assoc. reflexivity.
    + cbn [keys]. rewrite (flat_map_app _ (L0 ++ [c0])). cbn [flat_map]. rewrite app_nil_r, <- app_assoc. reflexivity.
    + symmetry. apply maxk_node, Hne. rewrite !in_app_iff. left; right; left; auto.
    + cbn [links]. rewrite (flat_map_app _ (L0 ++ [c0])). cbn [flat_map]. rewrite app_nil_r, <- app_assoc. reflexivity.
    + cbn [nodes]. rewrite (map_app _ (L0 ++ [c0])), list_sum_app. cbn [map]. rewrite !list_sum_cons, list_sum_nil. lia.
    + left. split; auto. intros j. cbn [seps]. rewrite Em.
      rewrite (flat_map_app _ (L0 ++ [c0])). cbn [flat_map]. rewrite app_nil_r, !cnt_app. cbn [cnt]. rewrite ?cnt_app. cbn [cnt]. lia.
  - (* node, from the right *)
    rewrite !seps_of_length in *.
    destruct (exists_last (l := cs)) as (L & lc & ->); [destruct cs; discriminate|].
    rewrite app_length in *. cbn [length] in *.
    destruct cs' as [|fc cs']; [discriminate|]. destruct cs' as [|sc cs']; [cbn in *; lia|]. cbn [length] in *.
    rewrite (seps_of_cons fc). cbn [get nth_error obind].
    destruct (Nat.ltb_spec (length L + 1 - 1) (o - 1)); [|lia].
    rewrite !arr_del_ok by (cbn [length]; lia). cbn [obind]. rewrite !remove_at_0.
    assert (Hcne : keys lc <> []).
    { eapply (keys_ne o h0 Ho (minn o h0)); [|left; apply minn_pos; auto]. apply Hcc. apply in_app_iff; right; left; auto. }
    assert (Hfne : keys fc <> []).
    { eapply (keys_ne o h0 Ho (minn o h0)); [|left; apply minn_pos; auto]. apply Hcc'. left; auto. }
    assert (Em : maxk (Node (seps_of (L ++ [lc])) (L ++ [lc])) = maxk lc) by (apply maxk_node; auto).
    rewrite Em. do 4 eexists. split; [reflexivity|]. constructor.
    + constructor.
      * rewrite !app_length, seps_of_length, app_length. cbn [length]. lia.
      * rewrite app_length, seps_of_length, app_length. cbn [length]. lia.
      * intros d Hd. apply in_app_iff in Hd as [Hd|[<-|[]]]; auto. apply Hcc'. left; auto.
      * rewrite seps_of_app2 by discriminate. reflexivity.
    + constructor; auto.
      * rewrite seps_of_length. cbn [length]. lia.
      * rewrite seps_of_length. cbn [length]. lia.
      * intros d Hd. apply Hcc'. right; auto.
    + cbn [ents]. rewrite (flat_map_app _ (L ++ [lc])). cbn [flat_map]. rewrite app_nil_r, <- app_assoc. reflexivity.
    + cbn [keys]. rewrite (flat_map_app _ (L ++ [lc])). cbn [flat_map]. rewrite app_nil_r, <- app_assoc. reflexivity.
    + symmetry. apply maxk_node. auto.
    + cbn [links]. rewrite (flat_map_app _ (L ++ [lc])). cbn [flat_map]. rewrite app_nil_r, <- app_assoc. reflexivity.
    + cbn [nodes]. rewrite (map_app _ (L ++ [lc])), list_sum_app. cbn [map]. rewrite !list_sum_cons, list_sum_nil. lia.
    + left. split; auto. intros j. cbn [seps]. rewrite Em.
      rewrite (flat_map_app _ (L ++ [lc])). cbn [flat_map]. rewrite app_nil_r, !cnt_app. cbn [cnt]. rewrite ?cnt_app. cbn [cnt]. lia.
Qed.

Lemma rebalance_ok o h (Ho : 4 <= o) A c B :
  let cs := A ++ c :: B in
  (forall d, In d (A ++ B) -> wf o h (minn o h) d) -> wf o h (minn o h - 1) c ->
  SS (flat_map keys cs) -> 2 <= length cs ->
  exists cs' lg sh fr, rebalance o (seps_of cs) cs (length A) = Ok (seps_of cs', cs', lg, sh, fr) /\
    (forall d, In d cs' -> wf o h (minn o h) d) /\
    length cs' = (if sh then length cs - 1 else length cs) /\
    flat_map ents cs' = flat_map ents cs /\ flat_map keys cs' = flat_map keys cs /\
    link_del (flat_map links cs) (flat_map links cs') /\
    list_sum (map nodes cs') + fr = list_sum (map nodes cs) /\
    srep lg (fun j => cnt j (flat_map keys cs) + cnt j (seps_of cs ++ flat_map seps cs))
            (fun j => cnt j (flat_map keys cs) + cnt j (seps_of cs' ++ flat_map seps cs')).
Proof.
  intros cs HAB Hc Hs Hlen. unfold rebalance.
  assert (G : get cs (length A) = Ok c) by (unfold cs; apply get_mid). rewrite G. cbn [obind].
  assert (Hmin : min_keys o c = minn o h).
  { unfold min_keys. rewrite (wf_is_leaf _ _ _ _ Hc). unfold minn. destruct h; reflexivity. }
  rewrite Hmin. destruct (Nat.leb_spec (minn o h) (num_keys c)) as [Hge|Hlt].
  { exists cs, [], false, 0. repeat split; auto.
    - intros d Hd. unfold cs in Hd. apply in_app_iff in Hd as [Hd|[<-|Hd]]; [apply HAB, in_app_iff; auto| |apply HAB, in_app_iff; auto].
      eapply wf_strengthen; eauto.
    - constructor.
  }
  pose proof (wf_nk _ _ _ _ Hc) as Hnk.
  assert (Hpair : exists A0 l r B0 fl, cs = A0 ++ l :: r :: B0 /\ fl = negb (length A =? 0) /\
            length A0 = (if negb (length A =? 0) then length A - 1 else 0) /\
            (if fl then c = r else c = l) /\
            (forall d, In d (A0 ++ B0) -> wf o h (minn o h) d) /\
            wf o h (minn o h) (if fl then l else r)).
  { destruct A as [|a0 A1].
    - destruct B as [|b B]; [cbn in Hlen; lia|]. exists [], c, b, B, false. repeat split; auto.
      + intros d Hd. apply HAB. right. exact Hd.
      + apply HAB. left; auto.
    - destruct (exists_last (l := a0 :: A1)) as (A0 & a & E); [discriminate|]. unfold cs. rewrite E in *.
      exists A0, a, c, B, true. rewrite app_length. cbn [length].
      destruct (Nat.eqb_spec (length A0 + 1) 0); [lia|]. cbn [negb]. repeat split; auto.
      + rewrite <- app_assoc. reflexivity.
      + lia.
      + intros d Hd. apply HAB. rewrite !in_app_iff in *. tauto.
      + apply HAB. rewrite !in_app_iff. left; right; left; auto. }
  destruct Hpair as (A0 & l & r & B0 & fl & Ecs & Efl & EA & Hcase & HAB0 & Hother).
  rewrite <- Efl in *. rewrite <- EA. clear EA.
  assert (Hwl : exists ml, wf o h ml l) by (destruct fl; subst; eauto). destruct Hwl as (ml & Hwl).
  assert (Hwr : exists mr, wf o h mr r) by (destruct fl; subst; eauto). destruct Hwr as (mr & Hwr).
  assert (Hneall : forall d, In d cs -> keys d <> []).
  { intros d Hd. unfold cs in Hd.
    assert (In d (A ++ B) \/ d = c) as [Hd'| ->].
    { rewrite in_app_iff in *. cbn in Hd. destruct Hd as [|[|]]; auto. }
    - eapply (keys_ne o h Ho (minn o h)); auto. left; apply minn_pos; auto.
    - eapply (keys_ne o h Ho); eauto. destruct (Nat.eq_dec h 0) as [->|]; auto. left.
      unfold minn. pose proof (cut_le (o - 1)). lia. }
  rewrite Ecs. rewrite (seps_of_app A0 l (r :: B0)).
  assert (Gk : get (map maxk A0 ++ maxk l :: seps_of (r :: B0)) (length A0) = Ok (maxk l))
    by (rewrite <- (map_length maxk A0); apply get_mid).
  rewrite Gk. cbn [obind]. rewrite get_mid. cbn [obind].
  assert (Egr : get (A0 ++ l :: r :: B0) (S (length A0)) = Ok r).
  { replace (A0 ++ l :: r :: B0) with ((A0 ++ [l]) ++ r :: B0) by (rewrite <- app_assoc; reflexivity).
    replace (S (length A0)) with (length (A0 ++ [l])) by (rewrite app_length; cbn; lia). apply get_mid. }
  rewrite Egr. cbn [obind].
  assert (Hcap : capacity o c = capacity o l).
  { unfold capacity. rewrite (wf_is_leaf _ _ _ _ Hc), (wf_is_leaf _ _ _ _ Hwl). reflexivity. }
  rewrite Hcap.
  assert (Hfind : find_in (seq (maxk l)) (map maxk A0 ++ maxk l :: seps_of (r :: B0)) = length (map maxk A0)).
  { apply find_in_mid; [|apply seq_refl]. intros y Hy. apply in_map_iff in Hy as (d & <- & Hd). apply seq_false. intros E.
    rewrite Ecs in Hs, Hneall. rewrite flat_map_app in Hs. apply SS_app in Hs as (_ & _ & Hs).
    apply (slt_irrefl (maxk d)). rewrite <- E at 2. apply Hs.
    - apply in_flat_map. exists d. split; auto. apply maxk_in, Hneall, in_app_iff; auto.
    - cbn [flat_map]. apply in_app_iff. left. apply maxk_in, Hneall, in_app_iff. right; left; auto. }
  assert (Hlne : keys l <> []) by (apply Hneall; rewrite Ecs; apply in_app_iff; right; left; auto).
  assert (Hrne : keys r <> []) by (apply Hneall; rewrite Ecs; apply in_app_iff; right; right; left; auto).
  destruct (Nat.ltb_spec (num_keys l + num_keys r) (capacity o l)) as [Hm|Hm].
  - (* coalesce *)
    destruct (merge_ok o h Ho ml mr l r Hwl Hwr Hm) as (t & lg & Emerge & P).
    { destruct fl; apply wf_nk in Hother; lia. }
    rewrite Emerge. cbn [obind fst snd]. rewrite Hfind, arr_del_ok by (rewrite app_length; cbn [length]; lia). cbn [obind].
    rewrite remove_at_mid, list_set_mid.
    rewrite arr_del_ok by (rewrite app_length; cbn [length]; lia). cbn [obind].
    assert (Er : remove_at (S (length A0)) (A0 ++ t :: r :: B0) = A0 ++ t :: B0).
    { replace (A0 ++ t :: r :: B0) with ((A0 ++ [t]) ++ r :: B0) by (rewrite <- app_assoc; reflexivity).
      replace (S (length A0)) with (length (A0 ++ [t])) by (rewrite app_length; cbn; lia).
      rewrite remove_at_mid, <- app_assoc. reflexivity. }
    rewrite Er.
    assert (Emax : maxk t = maxk r).
    { unfold maxk. rewrite (mp_keys P). apply last_app_ne; auto. }
    assert (Eseps : map maxk A0 ++ seps_of (r :: B0) = seps_of (A0 ++ t :: B0)).
    { rewrite seps_of_app, seps_of_cons, Emax. reflexivity. }
    rewrite Eseps. do 4 eexists. split; [reflexivity|]. repeat split.
    + intros d Hd. apply in_app_iff in Hd as [Hd|[<-|Hd]]; [apply HAB0, in_app_iff; auto|apply (mp_wf P)|apply HAB0, in_app_iff; auto].
    + rewrite !app_length. cbn [length]. lia.
    + rewrite !flat_map_app. cbn [flat_map]. rewrite (mp_ents P), <- app_assoc. reflexivity.
    + rewrite !flat_map_app. cbn [flat_map]. rewrite (mp_keys P), <- app_assoc. reflexivity.
    + rewrite !flat_map_app. cbn [flat_map].
      pose proof (link_del_mid (flat_map links A0) (flat_map links B0) _ _ (mp_links P)) as X.
      rewrite <- !app_assoc in X. exact X.
    + rewrite !map_app, !list_sum_app. cbn [map]. rewrite !list_sum_cons. pose proof (mp_nodes P). lia.
    + rewrite <- Eseps. destruct (mp_log P) as [[-> Hl]|[-> Hl]]; cbn [app srep].
      * split.
        -- rewrite !cnt_app. cbn [cnt]. rewrite seq_refl. lia.
        -- intros j. unfold fsub. rewrite !flat_map_app, !cnt_app. cbn [flat_map cnt]. rewrite !cnt_app, Hl. lia.
      * split; [rewrite !cnt_app; cbn [cnt]; rewrite seq_refl; lia|]. split.
        -- unfold fadd. rewrite !cnt_app. cbn [cnt]. rewrite seq_refl. lia.
        -- intros j. unfold fsub, fadd. rewrite !flat_map_app, !cnt_app. cbn [flat_map cnt]. rewrite !cnt_app, Hl. lia.
  - (* redistribute *)
    assert (Hnum : if fl then minn o h < num_keys l /\ minn o h <= S (num_keys r) /\ num_keys r < o - 1
                   else minn o h < num_keys r /\ minn o h <= S (num_keys l) /\ num_keys l < o - 1).
    { unfold capacity in Hm. rewrite (wf_is_leaf _ _ _ _ Hwl) in Hm.
      pose proof (wf_nk _ _ _ _ Hwl). pose proof (wf_nk _ _ _ _ Hwr).
      unfold minn in *. pose proof (cut_le (o - 1) ltac:(lia)). pose proof (cut_le o ltac:(lia)).
      destruct fl; subst c; destruct h; cbn [Nat.eqb] in Hm; lia. }
    destruct (redistribute_ok o h Ho fl ml mr l r Hwl Hwr Hnum) as (l' & sep & r' & lg & Ered & P).
    rewrite Ered. cbn [obind].
    assert (Gs : list_set (map maxk A0 ++ maxk l :: seps_of (r :: B0)) (length A0) sep = map maxk A0 ++ sep :: seps_of (r :: B0))
      by (rewrite <- (map_length maxk A0); apply list_set_mid).
    rewrite Gs, list_set_mid.
    assert (Er : list_set (A0 ++ l' :: r :: B0) (S (length A0)) r' = A0 ++ l' :: r' :: B0).
    { replace (A0 ++ l' :: r :: B0) with ((A0 ++ [l']) ++ r :: B0) by (rewrite <- app_assoc; reflexivity).
      replace (S (length A0)) with (length (A0 ++ [l'])) by (rewrite app_length; cbn; lia).
      rewrite list_set_mid, <- app_assoc. reflexivity. }
    rewrite Er.
    assert (Hr'ne : keys r' <> []).
    { eapply (keys_ne o h Ho (minn o h)); [apply (rp_wfr P)|left; apply minn_pos; auto]. }
    assert (Emax : maxk r' = maxk r).
    { unfold maxk. rewrite <- (last_app_ne (keys l') (keys r')), (rp_keys P), last_app_ne; auto. }
    assert (Eseps : map maxk A0 ++ sep :: seps_of (r :: B0) = seps_of (A0 ++ l' :: r' :: B0)).
    { rewrite seps_of_app, (rp_sep P), !seps_of_cons, Emax. reflexivity. }
    rewrite Eseps. do 4 eexists. split; [reflexivity|]. repeat split.
    + intros d Hd. apply in_app_iff in Hd as [Hd|[<-|[<-|Hd]]];
        [apply HAB0, in_app_iff; auto|apply (rp_wfl P)|apply (rp_wfr P)|apply HAB0, in_app_iff; auto].
    + rewrite !app_length. cbn [length]. lia.
    + rewrite !flat_map_app. cbn [flat_map]. rewrite (app_assoc (ents l')), (rp_ents P), <- app_assoc. reflexivity.
    + rewrite !flat_map_app. cbn [flat_map]. rewrite (app_assoc (keys l')), (rp_keys P), <- app_assoc. reflexivity.
    + rewrite !flat_map_app. cbn [flat_map]. rewrite (app_assoc (links l')), (rp_links P), <- app_assoc. constructor.
    + rewrite !map_app, !list_sum_app. cbn [map]. rewrite !list_sum_cons. pose proof (rp_nodes P). lia.
    + rewrite <- Eseps. destruct (rp_log P) as [[-> Hl]|[-> Hl]]; cbn [app srep].
      * intros j. specialize (Hl j). rewrite !flat_map_app, !cnt_app. cbn [flat_map cnt]. rewrite !cnt_app. lia.
      * assert (Hsep : In sep (flat_map keys (A0 ++ l :: r :: B0))).
        { rewrite flat_map_app. apply in_app_iff. right. cbn [flat_map]. rewrite app_assoc. apply in_app_iff. left.
          rewrite <- (rp_keys P). apply in_app_iff. left. rewrite (rp_sep P). apply maxk_in.
          eapply (keys_ne o h Ho (minn o h)); [apply (rp_wfl P)|left; apply minn_pos; auto]. }
        apply cnt_in in Hsep. split; [lia|]. split.
        -- unfold fadd. rewrite !cnt_app. cbn [cnt]. rewrite seq_refl. lia.
        -- intros j. specialize (Hl j). unfold fsub, fadd. rewrite !flat_map_app, !cnt_app. cbn [flat_map cnt]. rewrite !cnt_app. lia.
Qed.

(* ---------- deletion of one entry ---------- *)
Definition nk (k : list ascii) : list ascii -> bool := fun x => negb (seq k x).
Lemma sdel_map k l : map fst (sdel k l) = filter (nk k) (map fst l).
Proof. unfold sdel, nk. induction l as [|e l IH]; cbn; auto. destruct (seq k (fst e)); cbn; auto. f_equal; auto. Qed.
Lemma sdel_app k a b : sdel k (a ++ b) = sdel k a ++ sdel k b.
Proof. apply filter_app. Qed.
Lemma filter_nk_notin k l : ~ In k l -> filter (nk k) l = l.
Proof.
  induction l as [|x l IH]; cbn; auto. intros H. unfold nk at 1. destruct (seq_spec k x); [subst; tauto|]. cbn. f_equal; auto.
Qed.
Lemma sdel_notin k l : ~ In k (map fst l) -> sdel k l = l.
Proof.
  unfold sdel. induction l as [|x l IH]; cbn; auto. intros H. destruct (seq_spec k (fst x)); [subst; tauto|]. cbn. f_equal; auto.
Qed.
Lemma SS_filter p l : SS l -> SS (filter p l).
Proof.
  induction l as [|x l IH]; cbn; auto. intros H. apply SS_cons in H as [H1 H2]. destruct (p x); auto.
  apply SS_cons. split; auto. intros y Hy. apply filter_In in Hy as [Hy _]. auto.
Qed.
Lemma filter_last p (l : list (list ascii)) d : l <> [] -> p (last l d) = true -> last (filter p l) d = last l d.
Proof.
  intros Hne. destruct (exists_last Hne) as (l0 & x & ->). rewrite last_last. intros Hx.
  rewrite filter_app. cbn. rewrite Hx. apply last_last.
Qed.

Record del_post (o h m : nat) (nr : bool) (t : tree) (k : list ascii) (x : dres) : Prop := {
  dp_wf : wf o h (if dshrunk x then m - 1 else m) (dt x);
  dp_ents : ents (dt x) = sdel k (ents t);
  dp_pend : dpend x = if (nr || negb (h =? 0)) && seq k (maxk t) then Some (maxk (dt x)) else None;
  dp_links : link_del (links t) (links (dt x));
  dp_nodes : nodes (dt x) + dfreed x = nodes t;
  dp_log : exists rest f0, dfix x = KUnref k :: rest /\
     ((rest = [] /\ forall j, f0 j = cnt j (seps t)) \/
      (exists s, rest = [KUnref k; KRef s] /\ In s (keys (dt x)) /\ dpend x = None /\
         forall j, cnt j (seps t) + (if seq j s then 1 else 0) = f0 j + (if seq j k then 1 else 0))) /\
     srep (dlog x) (fun j => cnt j (keys (dt x)) + f0 j) (fun j => cnt j (keys (dt x)) + cnt j (seps (dt x))) }.
Arguments dp_wf {o h m nr t k x}. Arguments dp_ents {o h m nr t k x}. Arguments dp_pend {o h m nr t k x}.
Arguments dp_links {o h m nr t k x}. Arguments dp_nodes {o h m nr t k x}. Arguments dp_log {o h m nr t k x}.

Lemma combine_split (k : list ascii) (r : N) : forall ks rs, length ks = length rs -> In (k, r) (combine ks rs) ->
  exists (K1 K2 : list (list ascii)) (R1 R2 : list N), ks = K1 ++ k :: K2 /\ rs = R1 ++ r :: R2 /\ length K1 = length R1 /\ length K2 = length R2.
Proof.
  induction ks as [|x ks IH]; intros [|y rs] E Hin; cbn in *; try discriminate; [contradiction|].
  destruct Hin as [H|Hin].
  - injection H as -> ->. exists [], ks, [], rs. repeat split; auto.
  - destruct (IH rs) as (K1 & K2 & R1 & R2 & -> & -> & E1 & E2); auto. exists (x :: K1), K2, (y :: R1), R2. repeat split; cbn; auto.
Qed.

Lemma del_leaf_ok o m nr a nx ks rs k r :
  4 <= o -> wf o 0 m (Leaf a nx ks rs) -> 1 <= m -> (nr = true -> minn o 0 <= m) -> SS ks ->
  In (k, r) (combine ks rs) -> (forall k', In (k', r) (combine ks rs) -> k' = k \/ slt k k') ->
  exists x, remove_leaf nr a nx ks rs k r = Ok x /\ dshrunk x = true /\ del_post o 0 m nr (Leaf a nx ks rs) k x.
Proof.
  intros Ho W Hm Hnr Hs Hin Hmin. inversion W as [? ? ? ? ? Hlen Hb|]; subst.
  destruct (combine_split k r ks rs Hlen Hin) as (K1 & K2 & R1 & R2 & -> & -> & L1 & L2).
  apply SS_app in Hs as (_ & Hs & Hs1). apply SS_cons in Hs as [_ Hs2].
  assert (Fk : find_in (seq k) (K1 ++ k :: K2) = length K1).
  { apply find_in_mid; [|apply seq_refl]. intros y Hy. apply seq_false. intros ->. exact (slt_irrefl _ (Hs1 _ _ Hy (or_introl eq_refl))). }
  assert (Fr : find_in (N.eqb r) (R1 ++ r :: R2) = length R1).
  { apply find_in_mid; [|apply N.eqb_refl]. intros y Hy. destruct (N.eqb_spec r y) as [<-|]; auto. exfalso.
    assert (Hk' : exists k', In (k', r) (combine K1 R1)).
    { clear -L1 Hy. revert R1 L1 Hy. induction K1 as [|z K1 IH]; intros [|w R1] L Hy; cbn in *; try discriminate; [contradiction|].
      destruct Hy as [->|Hy]; [eauto|]. destruct (IH R1) as (k' & Hk'); auto. eauto. }
    destruct Hk' as (k' & Hk'). pose proof (in_combine_l _ _ _ _ Hk') as HK.
    specialize (Hs1 _ _ HK (or_introl eq_refl)).
    destruct (Hmin k') as [->|L].
    - rewrite combine_app_eq by auto. apply in_app_iff; auto.
    - exact (slt_irrefl _ Hs1).
    - exact (slt_asym _ _ Hs1 L). }
  unfold remove_leaf. rewrite Fk, Fr.
  rewrite !app_length in *. cbn [length] in *.
  set (pend := if nr && (length K1 =? length K1 + S (length K2) - 1) then Some (last (K1 ++ K2) []) else None).
  assert (Ep : (if nr && (length K1 =? length K1 + S (length K2) - 1)
               then if length K1 =? 0 then UB else let! p := get (K1 ++ k :: K2) (length K1 - 1) in Ok (Some p)
               else Ok None) = Ok pend).
  { unfold pend. destruct nr; auto. cbn [andb]. destruct (Nat.eqb_spec (length K1) (length K1 + S (length K2) - 1)) as [E|]; auto.
    specialize (Hnr eq_refl). cbn [minn] in Hnr. pose proof (cut_le (o - 1) ltac:(lia)).
    destruct (Nat.eqb_spec (length K1) 0); [lia|].
    assert (G : get (K1 ++ k :: K2) (length K1 - 1) = Ok (last K1 [])).
    { apply get_some. rewrite nth_error_app1 by lia. rewrite (nth_last_firstn _ _ []) by lia. do 2 f_equal. apply firstn_all2. lia. }
    rewrite G. cbn [obind]. destruct K2; [|cbn in *; lia]. rewrite app_nil_r. reflexivity. }
  rewrite Ep. cbn [obind]. rewrite !arr_del_ok by (rewrite app_length; cbn [length]; lia). cbn [obind].
  rewrite !remove_at_mid. eexists. split; [reflexivity|]. split; [reflexivity|].
  assert (Hk1 : ~ In k K1) by (intros X; exact (slt_irrefl _ (Hs1 _ _ X (or_introl eq_refl)))).
  assert (Hk2 : ~ In k K2) by (intros X; exact (slt_irrefl _ (Hs2 _ X))).
  constructor; cbn [dshrunk dt dpend dfix dlog dfreed].
  - constructor; rewrite !app_length; lia.
  - cbn [ents]. rewrite !combine_app_eq by auto. cbn [combine]. rewrite sdel_app.
    rewrite sdel_notin by (rewrite combine_fst; auto). f_equal. unfold sdel. cbn. rewrite seq_refl. cbn.
    symmetry. apply sdel_notin. rewrite combine_fst; auto.
  - unfold pend, maxk. cbn [keys Nat.eqb negb]. rewrite orb_false_r. destruct nr; auto. cbn [andb].
    destruct K2 as [|k2 K2].
    + rewrite last_last, seq_refl. cbn [length]. destruct (Nat.eqb_spec (length K1) (length K1 + 1 - 1)); [auto|lia].
    + cbn [length]. destruct (Nat.eqb_spec (length K1) (length K1 + S (S (length K2)) - 1)); [lia|].
      destruct (seq_spec k (last (K1 ++ k :: k2 :: K2) [])) as [E|]; auto. exfalso.
      rewrite last_app_ne in E by discriminate. change (last (k :: k2 :: K2) []) with (last (k2 :: K2) []) in E.
      apply Hk2. rewrite E at 1. apply last_in. discriminate.
  - constructor.
  - reflexivity.
  - exists [], (fun _ => 0). repeat split; auto.
Qed.

Lemma swap_sep_none ks k : swap_sep ks k None = (ks, None, []).
Proof. reflexivity. Qed.

Lemma find_in_none {A} (p : A -> bool) (l : list A) : (forall x : A, In x l -> p x = false) -> find_in p l = length l.
Proof.
  induction l as [|x l IH]; cbn; auto. intros H. rewrite H by auto. f_equal. apply IH. intros; apply H; auto.
Qed.

Lemma del_ok o k r : 4 <= o -> forall h m nr t, wf o h m t -> 1 <= m -> (nr = true -> minn o h <= m) -> SS (keys t) ->
  In (k, r) (ents t) -> (forall k', In (k', r) (ents t) -> k' = k \/ slt k k') ->
  exists x, del o nr t k r = Ok x /\ del_post o h m nr t k x.
Proof.
  intros Ho. induction h as [|h IH]; intros m nr t W Hm Hnr Hs Hin Hmin; inv_wf W.
  - destruct (del_leaf_ok o m nr a nx ks rs k r) as (x & E & _ & P); eauto.
  - assert (Hkne : forall c, In c cs -> keys c <> []).
    { intros c Hi. eapply (keys_ne o h Ho (minn o h)); auto. left. apply minn_pos; auto. }
    destruct (descend k cs) as (A & c & B & -> & HA & H5 & H6 & H7); auto.
    { destruct cs; discriminate. }
    assert (Hinc : In c (A ++ c :: B)) by (apply in_app_iff; right; left; auto).
    assert (Hs' := Hs). cbn [keys] in Hs'. rewrite flat_map_app in Hs'. cbn [flat_map] in Hs'.
    apply SS_app in Hs' as (HsA & Hs' & HsX). apply SS_app in Hs' as (Hsc & HsB & HsY).
    assert (HwA : forall b, In b A -> wf o h (minn o h) b) by (intros; apply Hc, in_app_iff; auto).
    assert (HwB : forall b, In b B -> wf o h (minn o h) b) by (intros; apply Hc, in_app_iff; right; right; auto).
    assert (Hfe : forall L, (forall b, In b L -> wf o h (minn o h) b) -> map fst (flat_map ents L) = flat_map keys L).
    { clear. intros L HL. induction L as [|b L IHL]; cbn; auto. rewrite map_app, (ents_keys o h (minn o h)) by (apply HL; left; auto).
      f_equal. apply IHL. intros; apply HL; right; auto. }
    assert (HkA : ~ In k (flat_map keys A)) by (intros X; exact (slt_irrefl _ (H5 _ X))).
    assert (HkB : ~ In k (flat_map keys B)) by (intros X; exact (slt_irrefl _ (H7 _ X))).
    cbn [ents] in Hin, Hmin. rewrite flat_map_app in Hin, Hmin. cbn [flat_map] in Hin, Hmin.
    assert (Hin_c : In (k, r) (ents c)).
    { rewrite !in_app_iff in Hin. destruct Hin as [X|[X|X]]; auto; exfalso; apply (in_map fst) in X; cbn in X;
      rewrite Hfe in X by auto; auto. }
    assert (Hmin_c : forall k', In (k', r) (ents c) -> k' = k \/ slt k k').
    { intros k' Hk'. apply Hmin. rewrite !in_app_iff. auto. }
    destruct (IH (minn o h) true c (Hc c Hinc) (minn_pos o h Ho) (fun _ => le_n _) Hsc Hin_c Hmin_c) as (x & Ex & P).
    rewrite del_node, <- HA, get_mid. cbn [obind]. rewrite Ex. cbn [obind]. unfold del_up.
    rewrite list_set_mid. set (c' := dt x) in *.
    (* the new child *)
    assert (Wc' : wf o h (minn o h - 1) c').
    { pose proof (dp_wf P) as X. destruct (dshrunk x); auto. eapply wf_weaken; eauto. lia. }
    assert (Hkc : keys c' = filter (nk k) (keys c)).
    { rewrite <- (ents_keys _ _ _ _ Wc'), <- (ents_keys o h (minn o h) c) by auto.
      unfold c'. rewrite (dp_ents P). apply sdel_map. }
    assert (Hc'ne : keys c' <> []).
    { eapply (keys_ne o h Ho); eauto. destruct (Nat.eq_dec h 0) as [->|]; auto. left.
      unfold minn. pose proof (cut_le (o - 1)). lia. }
    set (cs1 := A ++ c' :: B).
    assert (Hk1 : flat_map keys cs1 = filter (nk k) (flat_map keys (A ++ c :: B))).
    { unfold cs1. rewrite !flat_map_app. cbn [flat_map]. rewrite !filter_app.
      rewrite (filter_nk_notin k (flat_map keys A)), (filter_nk_notin k (flat_map keys B)), Hkc by auto. reflexivity. }
    assert (Hs1 : SS (flat_map keys cs1)) by (rewrite Hk1; apply SS_filter; exact Hs).
    assert (He1 : flat_map ents cs1 = sdel k (flat_map ents (A ++ c :: B))).
    { unfold cs1. rewrite !flat_map_app. cbn [flat_map]. rewrite !sdel_app.
      rewrite (sdel_notin k (flat_map ents A)), (sdel_notin k (flat_map ents B)) by (rewrite Hfe; auto).
      unfold c'. rewrite (dp_ents P). reflexivity. }
    pose proof (dp_pend P) as Hp. cbn [orb andb] in Hp. fold c' in Hp.
    destruct (dp_log P) as (rest & f0 & Efix & Hrest & Hsrep). fold c' in Hrest, Hsrep.
    (* separators after the swap *)
    assert (Hswap : exists pend fx, swap_sep (seps_of (A ++ c :: B)) k (dpend x) = (seps_of cs1, pend, fx) /\
        pend = (if seq k (maxk (Node (seps_of (A ++ c :: B)) (A ++ c :: B))) then Some (last (flat_map keys cs1) []) else None) /\
        ((fx = [] /\ seps_of cs1 = seps_of (A ++ c :: B) /\ (dpend x = None -> pend = None)) \/
         (exists s, fx = [KUnref k; KRef s] /\ In s (keys c') /\ pend = None /\ dpend x <> None /\
            forall j, cnt j (seps_of (A ++ c :: B)) + (if seq j s then 1 else 0) = cnt j (seps_of cs1) + (if seq j k then 1 else 0)))).
    { assert (Hne0 : forall d, In d (map maxk A) -> seq k d = false).
      { intros d Hd. apply in_map_iff in Hd as (b & <- & Hb'). apply seq_false. intros E. apply HkA. rewrite E.
        apply in_flat_map. exists b. split; auto. apply maxk_in, Hkne, in_app_iff; auto. }
      destruct B as [|b B].
      - assert (E1 : seps_of cs1 = map maxk A) by (unfold cs1; rewrite seps_of_app, app_nil_r; reflexivity).
        assert (E2 : seps_of (A ++ [c]) = map maxk A) by (rewrite seps_of_app, app_nil_r; reflexivity).
        rewrite maxk_node by (apply Hkne, Hinc). rewrite E1, E2.
        assert (E3 : last (flat_map keys cs1) [] = maxk c').
        { unfold cs1. rewrite flat_map_app. cbn [flat_map]. rewrite app_nil_r. apply last_app_ne; auto. }
        rewrite E3, Hp. destruct (seq k (maxk c)).
        + cbn [swap_sep]. rewrite find_in_none by auto. rewrite Nat.ltb_irrefl. do 2 eexists. split; [reflexivity|]. split; auto.
        + do 2 eexists. split; [reflexivity|]. split; auto.
      - assert (E0 : seq k (maxk (Node (seps_of (A ++ c :: b :: B)) (A ++ c :: b :: B))) = false).
        { apply seq_false. intros E. unfold maxk in E. cbn [keys] in E. rewrite flat_map_app in E.
          change (flat_map keys (c :: b :: B)) with (keys c ++ flat_map keys (b :: B)) in E.
          assert (Hfb : flat_map keys (b :: B) <> []).
          { apply flat_keys_ne; [discriminate|]. intros d Hd. apply Hkne, in_app_iff. right; right; auto. }
          rewrite !last_app_ne in E by (auto; intros X; apply app_eq_nil in X as [_ X]; auto).
          apply HkB. rewrite E at 1. apply last_in. auto. }
        rewrite E0. rewrite Hp. unfold cs1. rewrite !seps_of_app.
        destruct (seq_spec k (maxk c)) as [->|Hne].
        + cbn [swap_sep].
          rewrite find_in_mid by (auto; apply seq_refl). rewrite app_length. cbn [length].
          destruct (Nat.ltb_spec (length (map maxk A)) (length (map maxk A) + S (length (seps_of (b :: B))))); [|lia].
          rewrite list_set_mid. do 2 eexists. split; [reflexivity|]. split; auto. right. exists (maxk c'). repeat split; auto.
          * apply maxk_in; auto.
          * discriminate.
          * intros j. rewrite !cnt_app. cbn [cnt]. lia.
        + assert (E4 : maxk c' = maxk c).
          { unfold maxk. rewrite Hkc. apply filter_last; [apply Hkne, Hinc|]. unfold nk. fold (maxk c).
            destruct (seq_spec k (maxk c)); [congruence|reflexivity]. }
          rewrite E4. do 2 eexists. split; [reflexivity|]. split; auto. }
    destruct Hswap as (pend & fx & Esw & Hpend & Hfx). rewrite Esw. clear Esw.
    rewrite app_length in Hlen. cbn [length] in Hlen. pose proof (seps_of_length (A ++ c :: B)) as Lsep.
    rewrite app_length in Lsep. cbn [length] in Lsep.
    assert (Lcs1 : length cs1 = S (length A + length B)) by (unfold cs1; rewrite app_length; cbn [length]; lia).
    (* the log up to the rebalancing at this level *)
    set (F0 := fun j => cnt j (seps_of cs1) + cnt j (flat_map seps A) + cnt j (flat_map seps B) + f0 j).
    assert (HS : srep (dlog x) (fun j => cnt j (flat_map keys cs1) + F0 j)
                   (fun j => cnt j (flat_map keys cs1) + cnt j (seps_of cs1 ++ flat_map seps cs1))).
    { eapply srep_ext; [apply (srep_frame _ (fun j => cnt j (flat_map keys A) + cnt j (flat_map keys B) + cnt j (seps_of cs1) +
           cnt j (flat_map seps A) + cnt j (flat_map seps B))), Hsrep| |]; intros j; cbn beta; unfold F0, cs1;
        rewrite !flat_map_app, ?cnt_app; cbn [flat_map]; rewrite ?cnt_app; lia. }
    assert (HF : exists rest' , dfix x ++ fx = KUnref k :: rest' /\
      ((rest' = [] /\ forall j, F0 j = cnt j (seps (Node (seps_of (A ++ c :: B)) (A ++ c :: B)))) \/
      (exists s, rest' = [KUnref k; KRef s] /\ In s (flat_map keys cs1) /\ pend = None /\
         forall j, cnt j (seps (Node (seps_of (A ++ c :: B)) (A ++ c :: B))) + (if seq j s then 1 else 0) = F0 j + (if seq j k then 1 else 0)))).
    { assert (Hsub : forall s, In s (keys c') -> In s (flat_map keys cs1)).
      { intros s X. unfold cs1. rewrite flat_map_app. cbn [flat_map]. rewrite !in_app_iff. auto. }
      cbn [seps]. rewrite Efix. exists (rest ++ fx). split; [reflexivity|].
      destruct Hrest as [[-> Hf0]|(s & -> & Hsin & Hpn & Hf0)].
      - cbn [app]. destruct Hfx as [(-> & Eq & _)|(s & -> & Hsin & Hpn & _ & Hj)].
        + left. split; auto. intros j. unfold F0. rewrite Eq, Hf0, !cnt_app, !flat_map_app, !cnt_app. cbn [flat_map]. rewrite !cnt_app. lia.
        + right. exists s. repeat split; auto. intros j. specialize (Hj j). unfold F0. rewrite Hf0, !cnt_app, !flat_map_app, !cnt_app.
          cbn [flat_map]. rewrite !cnt_app. lia.
      - destruct Hfx as [(-> & Eq & Hn)|(s' & _ & _ & _ & Hn & _)]; [|congruence].
        right. exists s. repeat split; auto. intros j. specialize (Hf0 j). unfold F0.
        rewrite Eq, !cnt_app, !flat_map_app, !cnt_app. cbn [flat_map]. rewrite !cnt_app. lia. }
    destruct HF as (rest' & Efix' & Hrest').
    assert (Hln : link_del (flat_map links (A ++ c :: B)) (flat_map links cs1)).
    { unfold cs1. rewrite !flat_map_app. cbn [flat_map]. apply link_del_mid. apply (dp_links P). }
    assert (Hnn : list_sum (map nodes cs1) + dfreed x = list_sum (map nodes (A ++ c :: B))).
    { unfold cs1. rewrite !list_sum_mid. pose proof (dp_nodes P) as X. fold c' in X. lia. }
    assert (Hpend' : forall u, last (keys u) [] = last (flat_map keys cs1) [] ->
       pend = (if (nr || negb (S h =? 0)) && seq k (maxk (Node (seps_of (A ++ c :: B)) (A ++ c :: B))) then Some (maxk u) else None)).
    { intros u Hu. rewrite Hpend. cbn [Nat.eqb negb]. rewrite orb_true_r. cbn [andb]. unfold maxk at 3. rewrite Hu. reflexivity. }
    assert (HwAB : forall d, In d (A ++ B) -> wf o h (minn o h) d) by (intros d Hd; apply in_app_iff in Hd as [|]; auto).
    destruct (dshrunk x) eqn:Esh.
    + destruct (rebalance_ok o h Ho A c' B) as (cs2 & lg & sh & fr & Ereb & Hw2 & L2 & He2 & Hk2 & Hl2 & Hn2 & Hs2); auto.
      { fold cs1. lia. }
      fold cs1 in Ereb, L2, He2, Hk2, Hl2, Hn2, Hs2. rewrite Ereb. cbn [obind].
      eexists. split; [reflexivity|]. constructor; cbn [dt dpend dfix dlog dshrunk dfreed].
      * pose proof (seps_of_length cs2). constructor; auto; [|destruct sh]; try lia. destruct sh; lia.
      * cbn [ents]. congruence.
      * apply Hpend'. cbn [keys]. congruence.
      * cbn [links]. eapply link_del_trans; eauto.
      * cbn [nodes]. lia.
      * exists rest', F0. cbn [keys]. rewrite Hk2. split; [auto|]. split.
        -- destruct Hrest' as [[-> Hr]|(s & -> & Hsi & Hpn & Hr)]; [left; auto|]. right. exists s. repeat split; auto.
        -- cbn [seps]. eapply srep_app; [exact HS|exact Hs2].
    + eexists. split; [reflexivity|]. constructor; cbn [dt dpend dfix dlog dshrunk dfreed].
      * pose proof (seps_of_length cs1). constructor; auto; try lia.
        intros d Hd. unfold cs1 in Hd. apply in_app_iff in Hd as [Hd|[<-|Hd]]; auto. pose proof (dp_wf P) as X. rewrite Esh in X. exact X.
      * exact He1.
      * apply Hpend'. reflexivity.
      * exact Hln.
      * cbn [nodes]. lia.
      * exists rest', F0. cbn [keys]. split; [auto|]. split.
        -- destruct Hrest' as [[-> Hr]|(s & -> & Hsi & Hpn & Hr)]; [left; auto|]. right. exists s. repeat split; auto.
        -- exact HS.
Qed.
