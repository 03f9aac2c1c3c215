(* Simulation of the specification by the B+ tree. *)
From Verif Require Import Base Bptree_Model Bptree_Arr Bptree_Proofs Bptree_Ins Bptree_Del Bptree_Spec Bptree_Api.
From Coq Require Import Sorted Permutation.

Lemma str_lt_slt a b : str_lt a b <-> slt a b.
Proof.
  unfold slt. split.
  - intros (p & [(-> & c & y & ->)|(c & x & d & y & -> & -> & L)]).
    + induction p as [|z p IH]; cbn; auto. rewrite N.compare_refl. auto.
    + induction p as [|z p IH]; cbn; [|rewrite N.compare_refl; auto]. apply N.compare_lt_iff in L. rewrite L. reflexivity.
  - revert b. induction a as [|x a IH]; intros [|y b]; cbn; try discriminate.
    + intros _. exists []. left. split; auto. exists y, b. reflexivity.
    + destruct (N.compare_spec (byteN x) (byteN y)) as [E|L|]; try discriminate.
      * apply byteN_inj in E as ->. intros H. destruct (IH b H) as (p & [(-> & c & z & ->)|(c & u & d & v & -> & -> & L)]).
        -- exists (y :: p). left. split; auto. exists c, z. reflexivity.
        -- exists (y :: p). right. exists c, u, d, v. auto.
      * intros _. exists []. right. exists x, a, y, b. auto.
Qed.
Lemma keqb_spec a b : reflect (a = b) (keqb a b).
Proof. unfold keqb. destruct (list_eq_dec ascii_dec a b); constructor; auto. Qed.
Lemma keqb_seq a b : keqb a b = seq a b.
Proof. destruct (keqb_spec a b), (seq_spec a b); congruence. Qed.
Lemma mem_in k l : mem k l = true <-> In k l.
Proof.
  unfold mem. rewrite existsb_exists. split.
  - intros (x & H & E). destruct (keqb_spec k x); [subst; auto|discriminate].
  - intros H. exists k. split; auto. destruct (keqb_spec k k); congruence.
Qed.
Lemma mem_false k l : mem k l = false <-> ~ In k l.
Proof. rewrite <- mem_in. destruct (mem k l); split; congruence. Qed.
Lemma strip_in k l x : In x (strip k l) <-> In x l /\ x <> k.
Proof.
  unfold strip. rewrite filter_In. destruct (keqb_spec k x); cbn; intuition congruence.
Qed.
Lemma strip_notin k l : ~ In k l -> strip k l = l.
Proof.
  unfold strip. induction l as [|x l IH]; cbn; auto. intros H. destruct (keqb_spec k x); [subst; tauto|]. cbn. f_equal. tauto.
Qed.
Lemma strip_nodup k l : NoDup l -> NoDup (strip k l).
Proof. apply NoDup_filter. Qed.
Lemma strip_length k l : NoDup l -> In k l -> S (length (strip k l)) = length l.
Proof.
  intros N H. apply in_split in H as (a & b & ->). apply NoDup_remove_2 in N. rewrite in_app_iff in N.
  unfold strip. rewrite filter_app. cbn [filter]. destruct (keqb_spec k k); [|congruence]. cbn [negb].
  fold (strip k a). fold (strip k b). rewrite !strip_notin by tauto. rewrite !app_length. cbn. lia.
Qed.
Lemma strip_idem k l : strip k (strip k l) = strip k l.
Proof. apply strip_notin. rewrite strip_in. tauto. Qed.

(* ---------- records ---------- *)
Notation zgrp := (N * grp)%type.
Definition rec_of (g : grp) : brec :=
  {| rdata := fst (snd g); rsize := snd (snd g); rref := wrap32 (N.of_nat (length (fst g))) |}.
Record zinv (h : N -> option brec) (E : list entry) (fr : N) (zs : list zgrp) : Prop := {
  zi_nd : NoDup (map fst zs);
  zi_g : forall r g, In (r, g) zs -> (r < fr)%N /\ NoDup (fst g) /\ fst g <> [] /\ h r = Some (rec_of g);
  zi_n : forall r, ~ In r (map fst zs) -> h r = None;
  zi_e : forall k r, In (k, r) E <-> exists g, In (r, g) zs /\ In k (fst g) }.

Definition others (k : list ascii) (r : N) (Z : list zgrp) : Prop := forall p, In p Z -> ~ In k (fst (snd p)) /\ fst p <> r.

Lemma others_app k r a b : others k r (a ++ b) <-> others k r a /\ others k r b.
Proof.
  unfold others. split.
  - intros H. split; intros p Hp; apply H, in_app_iff; auto.
  - intros [H1 H2] p Hp. apply in_app_iff in Hp as [|]; auto.
Qed.
Lemma zsplit h E fr zs k r : zinv h E fr zs -> (forall r', In (k, r') E -> r' = r) -> In (k, r) E ->
  exists Z1 g Z2, zs = Z1 ++ (r, g) :: Z2 /\ In k (fst g) /\ others k r (Z1 ++ Z2).
Proof.
  intros Z Hi Hin. apply (zi_e _ _ _ _ Z) in Hin as (g & Hg & Hk). apply in_split in Hg as (Z1 & Z2 & ->).
  exists Z1, g, Z2. repeat split; auto.
  - intros Hk'. pose proof (zi_nd _ _ _ _ Z) as N. rewrite map_app in N. cbn in N. apply NoDup_remove_2 in N.
    destruct p as [r' g']. cbn in Hk'. assert (E' : r' = r).
    { apply Hi. apply (zi_e _ _ _ _ Z). exists g'. split; auto. rewrite in_app_iff in *. cbn. tauto. }
    apply N. rewrite <- map_app. apply in_map_iff. exists (r', g'). subst; auto.
  - intros E'. pose proof (zi_nd _ _ _ _ Z) as N. rewrite map_app in N. cbn in N. apply NoDup_remove_2 in N.
    apply N. rewrite <- map_app. apply in_map_iff. exists p. auto.
Qed.

Lemma glookup_split k r g Z1 Z2 : others k r (Z1 ++ Z2) -> In k (fst g) ->
  glookup k (map snd (Z1 ++ (r, g) :: Z2)) = Some g.
Proof.
  intros H Hk. apply others_app in H as [H _]. unfold glookup. rewrite map_app. induction Z1 as [|p Z1 IH]; cbn.
  - rewrite (proj2 (mem_in k (fst g))); auto.
  - rewrite (proj2 (mem_false k (fst (snd p)))) by (apply H; left; auto). apply IH. intros q Hq. apply H. right; auto.
Qed.
Lemma find_none {A} (p : A -> bool) l : (forall x, In x l -> p x = false) -> List.find p l = None.
Proof. induction l as [|x l IH]; cbn; intros H; auto. rewrite H by auto. apply IH. intros; apply H; auto. Qed.
Lemma absent h E fr zs k r g : zinv h E fr zs -> ~ In k (map fst E) -> In (r, g) zs -> ~ In k (fst g).
Proof.
  intros Z Hn Hin Hk. apply Hn. apply in_map_iff. exists (k, r). split; auto. apply (zi_e _ _ _ _ Z). eauto.
Qed.
Lemma glookup_none h E fr zs k : zinv h E fr zs -> ~ In k (map fst E) -> glookup k (map snd zs) = None.
Proof.
  intros Z Hn. apply find_none. intros g Hg. apply in_map_iff in Hg as ([r g'] & <- & Hg). cbn. apply mem_false.
  eapply absent; eauto.
Qed.

Lemma map_others k r (f : grp -> grp) Z : (forall g, ~ In k (fst g) -> f g = g) -> others k r Z -> map f (map snd Z) = map snd Z.
Proof.
  intros Hf H. rewrite map_map. apply map_ext_in. intros p Hp. apply Hf. apply H; auto.
Qed.

Lemma gwrite_split k r g Z1 Z2 v : others k r (Z1 ++ Z2) -> In k (fst g) ->
  gwrite k v (map snd (Z1 ++ (r, g) :: Z2)) = map snd (Z1 ++ (r, (fst g, v)) :: Z2).
Proof.
  intros H Hk. unfold gwrite. rewrite glookup_split by auto. rewrite !map_app. cbn.
  apply others_app in H as [H1 H2]. rewrite (proj2 (mem_in k (fst g))) by auto.
  rewrite !(map_others k r) by (auto; intros g' Hg'; rewrite (proj2 (mem_false k (fst g'))); auto). reflexivity.
Qed.

Definition zopt (p : zgrp) : list zgrp := if has_name (snd p) then [p] else [].
Lemma filter_named h E fr zs Z : zinv h E fr zs -> incl Z zs -> filter has_name (map snd Z) = map snd Z.
Proof.
  intros H Hi. induction Z as [|[r g] Z IH]; cbn; auto.
  destruct (zi_g _ _ _ _ H r g) as (_ & _ & Hne & _); [apply Hi; left; auto|].
  unfold has_name at 1. destruct (fst g); [congruence|]. f_equal. apply IH. intros x Hx. apply Hi. right; auto.
Qed.
Lemma gdel_split h E fr k r g Z1 Z2 : zinv h E fr (Z1 ++ (r, g) :: Z2) -> others k r (Z1 ++ Z2) ->
  gdel k (map snd (Z1 ++ (r, g) :: Z2)) = map snd (Z1 ++ zopt (r, (strip k (fst g), snd g)) ++ Z2).
Proof.
  intros Z H. unfold gdel. apply others_app in H as [H1 H2].
  assert (Hid : forall g' : grp, ~ In k (fst g') -> (strip k (fst g'), snd g') = g').
  { intros [n v] Hn. cbn [fst snd] in *. rewrite strip_notin; auto. }
  rewrite !map_app. cbn [map]. rewrite !(map_others k r) by auto. rewrite !filter_app. cbn [filter snd].
  rewrite !(filter_named h E fr _ _ Z) by (intros x Hx; apply in_app_iff; cbn; auto).
  unfold zopt. cbn [snd]. destruct (has_name (strip k (fst g), snd g)); reflexivity.
Qed.
Lemma gdel_absent h E fr zs k : zinv h E fr zs -> ~ In k (map fst E) -> gdel k (map snd zs) = map snd zs.
Proof.
  intros Z Hn. unfold gdel. rewrite map_map.
  rewrite (map_ext_in _ snd).
  - eapply filter_named; eauto. apply incl_refl.
  - intros [r [n v]] Hp. cbn [fst snd]. rewrite strip_notin; auto. eapply (absent _ _ _ _ k r (n, v)); eauto.
Qed.
Lemma gname_split h E fr k a r g Z1 Z2 : zinv h E fr (Z1 ++ (r, g) :: Z2) -> others k r (Z1 ++ Z2) -> In k (fst g) ->
  ~ In a (map fst E) ->
  gname k a (map snd (Z1 ++ (r, g) :: Z2)) = map snd (Z1 ++ (r, (a :: fst g, snd g)) :: Z2).
Proof.
  intros Z H Hk Ha. unfold gname. apply others_app in H as [H1 H2].
  assert (Hm : forall Y, incl Y (Z1 ++ (r, g) :: Z2) -> others k r Y ->
    map (fun g => if mem k (fst g) then (a :: strip a (fst g), snd g) else (strip a (fst g), snd g)) (map snd Y) = map snd Y).
  { intros Y HY HO. rewrite map_map. apply map_ext_in. intros [r' [n v]] Hp. cbn [fst snd].
    rewrite (proj2 (mem_false k n)) by apply (HO (r', (n, v)) Hp). rewrite strip_notin; auto.
    apply (absent _ _ _ _ a r' (n, v) Z Ha). apply HY; auto. }
  rewrite !map_app. cbn [map]. rewrite !Hm; auto; try (intros x Hx; apply in_app_iff; cbn; auto).
  rewrite filter_app. cbn [filter snd]. rewrite !(filter_named h E fr _ _ Z) by (intros x Hx; apply in_app_iff; cbn; auto).
  rewrite (proj2 (mem_in k (fst g))) by auto. cbn [has_name fst].
  rewrite strip_notin; auto. apply (absent _ _ _ _ a r g Z Ha). apply in_app_iff; right; left; auto.
Qed.
Lemma gname_del k a gs : k <> a -> gname k a gs = gname k a (gdel a gs).
Proof.
  intros Hne. unfold gname, gdel. induction gs as [|g gs IH]; cbn [map filter]; auto.
  assert (Hmk : mem k (strip a (fst g)) = mem k (fst g)).
  { destruct (mem k (fst g)) eqn:E.
    - apply mem_in. apply strip_in. split; auto. apply mem_in; auto.
    - apply mem_false. rewrite strip_in. apply mem_false in E. tauto. }
  destruct (has_name (strip a (fst g), snd g)) eqn:En.
  - cbn [map filter fst snd]. rewrite Hmk, strip_idem.
    destruct (mem k (fst g)); cbn [has_name fst]; rewrite IH; auto.
  - unfold has_name in En. cbn in En. destruct (strip a (fst g)) eqn:Es; [|discriminate].
    cbn in Hmk. rewrite <- Hmk. cbn [has_name fst]. exact IH.
Qed.

(* effect on the records *)
Lemma rset_eq h r v r' : rset h r v r' = if (r =? r')%N then v else h r'.
Proof. reflexivity. Qed.

Lemma zl_write h E fr k r g Z1 Z2 v : zinv h E fr (Z1 ++ (r, g) :: Z2) -> others k r (Z1 ++ Z2) ->
  zinv (rset h r (Some (rec_of (fst g, v)))) E fr (Z1 ++ (r, (fst g, v)) :: Z2).
Proof.
  intros Z H. constructor.
  - pose proof (zi_nd _ _ _ _ Z) as N. rewrite map_app in *. exact N.
  - intros r' g' Hin. rewrite rset_eq. rewrite in_app_iff in Hin. cbn in Hin.
    assert (Hc : (r', g') = (r, (fst g, v)) \/ In (r', g') (Z1 ++ Z2)) by (rewrite in_app_iff; intuition).
    destruct Hc as [Hc|Hc].
    + injection Hc as -> ->. rewrite N.eqb_refl. destruct (zi_g _ _ _ _ Z r g) as (A1 & A2 & A3 & A4); [apply in_app_iff; right; left; auto|].
      repeat split; auto.
    + destruct (N.eqb_spec r r') as [<-|]; [exfalso; apply (H _ Hc); auto|].
      apply (zi_g _ _ _ _ Z). rewrite in_app_iff in *. cbn. tauto.
  - intros r' Hn. rewrite rset_eq. rewrite map_app in Hn. cbn in Hn. rewrite in_app_iff in Hn. cbn in Hn.
    destruct (N.eqb_spec r r'); [tauto|]. apply (zi_n _ _ _ _ Z). rewrite map_app, in_app_iff. cbn. tauto.
  - intros k' r'. rewrite (zi_e _ _ _ _ Z k' r'). split; intros (g' & Hin & Hk').
    + rewrite in_app_iff in Hin. cbn in Hin. destruct Hin as [Hin|[Hin|Hin]].
      * exists g'. rewrite in_app_iff. auto.
      * injection Hin as <- <-. exists (fst g, v). rewrite in_app_iff. cbn. auto.
      * exists g'. rewrite in_app_iff. cbn. auto.
    + rewrite in_app_iff in Hin. cbn in Hin. destruct Hin as [Hin|[Hin|Hin]].
      * exists g'. rewrite in_app_iff. auto.
      * injection Hin as <- <-. exists g. rewrite in_app_iff. cbn. auto.
      * exists g'. rewrite in_app_iff. cbn. auto.
Qed.

Lemma zl_new h E E' fr fr' k r zs v : zinv h E fr zs -> ~ In r (map fst zs) -> (r < fr')%N -> (fr <= fr')%N ->
  (forall k' r', In (k', r') E' <-> (k' = k /\ r' = r) \/ In (k', r') E) ->
  zinv (rset h r (Some (rec_of ([k], v)))) E' fr' (zs ++ [(r, ([k], v))]).
Proof.
  intros Z Hr Hf Hff HE. constructor.
  - rewrite map_app. cbn. apply (Permutation_NoDup (Permutation_cons_append _ _)). constructor; auto. apply (zi_nd _ _ _ _ Z).
  - intros r' g' Hin. rewrite rset_eq. apply in_app_iff in Hin as [Hin|[Hin|[]]].
    + destruct (zi_g _ _ _ _ Z r' g' Hin) as (A1 & A2 & A3 & A4).
      destruct (N.eqb_spec r r') as [<-|]; [exfalso; apply Hr, in_map_iff; exists (r, g'); auto|]. repeat split; auto. lia.
    + injection Hin as <- <-. rewrite N.eqb_refl. repeat split; auto; [repeat constructor; auto|discriminate].
  - intros r' Hn. rewrite rset_eq. rewrite map_app, in_app_iff in Hn. cbn in Hn. destruct (N.eqb_spec r r'); [tauto|]. apply (zi_n _ _ _ _ Z). tauto.
  - intros k' r'. rewrite HE, (zi_e _ _ _ _ Z). split.
    + intros [[-> ->]|(g' & Hin & Hk')].
      * exists ([k], v). rewrite in_app_iff. cbn. auto.
      * exists g'. rewrite in_app_iff. auto.
    + intros (g' & Hin & Hk'). apply in_app_iff in Hin as [Hin|[Hin|[]]]; [eauto|]. injection Hin as <- <-. cbn in Hk'. left. intuition.
Qed.

Lemma zopt_in p q : In q (zopt p) <-> q = p /\ fst (snd p) <> [].
Proof.
  unfold zopt, has_name. destruct (fst (snd p)) as [|n l]; cbn.
  - intuition.
  - split; [intros [<-|[]]; split; auto; discriminate|]. intros [-> _]. auto.
Qed.

Lemma zl_drop h E E' fr k r g Z1 Z2 : zinv h E fr (Z1 ++ (r, g) :: Z2) -> others k r (Z1 ++ Z2) ->
  (forall k' r', In (k', r') E' <-> In (k', r') E /\ k' <> k) ->
  zinv (rset h r (if has_name (strip k (fst g), snd g) then Some (rec_of (strip k (fst g), snd g)) else None)) E' fr
       (Z1 ++ zopt (r, (strip k (fst g), snd g)) ++ Z2).
Proof.
  intros Z H HE. set (g1 := (strip k (fst g), snd g)).
  pose proof (zi_nd _ _ _ _ Z) as N. rewrite map_app in N. cbn in N.
  destruct (zi_g _ _ _ _ Z r g) as (A1 & A2 & A3 & A4); [apply in_app_iff; right; left; auto|].
  constructor.
  - unfold zopt. cbn [snd]. destruct (has_name g1); rewrite !map_app; cbn; auto. apply NoDup_remove_1 in N. exact N.
  - intros r' g' Hin. rewrite rset_eq. rewrite !in_app_iff, zopt_in in Hin.
    assert (Hc : ((r', g') = (r, g1) /\ fst g1 <> []) \/ In (r', g') (Z1 ++ Z2)) by (rewrite in_app_iff; cbn in Hin; intuition).
    destruct Hc as [[Hc Hne]|Hc].
    + injection Hc as -> ->. rewrite N.eqb_refl. unfold has_name. cbn [fst] in *. fold g1.
      destruct (fst g1) eqn:Eg; [congruence|]. repeat split; auto; try congruence.
      rewrite <- Eg. apply strip_nodup; auto.
    + destruct (N.eqb_spec r r') as [<-|]; [exfalso; apply (H _ Hc); auto|].
      apply (zi_g _ _ _ _ Z). rewrite in_app_iff in *. cbn. tauto.
  - intros r' Hn. rewrite rset_eq. rewrite !map_app, !in_app_iff in Hn. unfold zopt in Hn. cbn [snd] in Hn. fold g1.
    destruct (N.eqb_spec r r') as [->|].
    + destruct (has_name g1); auto. cbn in Hn. tauto.
    + apply (zi_n _ _ _ _ Z). rewrite map_app, in_app_iff. cbn. tauto.
  - intros k' r'. rewrite HE, (zi_e _ _ _ _ Z k' r'). split.
    + intros [(g' & Hin & Hk') Hne]. rewrite in_app_iff in Hin. cbn in Hin. destruct Hin as [Hin|[Hin|Hin]].
      * exists g'. rewrite in_app_iff. auto.
      * injection Hin as <- <-. exists g1. rewrite !in_app_iff, zopt_in. assert (Hi : In k' (fst g1)) by (apply strip_in; auto).
        split; auto. right; left. split; auto. cbn. intros X. unfold g1 in Hi. cbn in Hi. rewrite X in Hi. destruct Hi.
      * exists g'. rewrite !in_app_iff. auto.
    + intros (g' & Hin & Hk'). rewrite !in_app_iff, zopt_in in Hin.
      assert (Hc : (r', g') = (r, g1) \/ In (r', g') (Z1 ++ Z2)) by (rewrite in_app_iff; intuition).
      destruct Hc as [Hc|Hc].
      * injection Hc as -> ->. apply strip_in in Hk' as [Hk' Hne]. split; auto. exists g. rewrite in_app_iff. cbn. auto.
      * split; [exists g'; split; auto; rewrite in_app_iff in *; cbn; tauto|]. intros ->. destruct (H _ Hc) as [Hx _]. apply Hx. exact Hk'.
Qed.

Lemma zl_name h E E' fr fr' k a r g Z1 Z2 : zinv h E fr (Z1 ++ (r, g) :: Z2) -> others k r (Z1 ++ Z2) -> ~ In a (map fst E) ->
  (fr <= fr')%N -> (forall k' r', In (k', r') E' <-> (k' = a /\ r' = r) \/ In (k', r') E) ->
  zinv (rset h r (Some (rec_of (a :: fst g, snd g)))) E' fr' (Z1 ++ (r, (a :: fst g, snd g)) :: Z2).
Proof.
  intros Z H Ha Hff HE.
  destruct (zi_g _ _ _ _ Z r g) as (A1 & A2 & A3 & A4); [apply in_app_iff; right; left; auto|].
  assert (Han : ~ In a (fst g)) by (apply (absent _ _ _ _ a r g Z Ha); apply in_app_iff; right; left; auto).
  constructor.
  - pose proof (zi_nd _ _ _ _ Z) as N. rewrite map_app in *. exact N.
  - intros r' g' Hin. rewrite rset_eq. rewrite in_app_iff in Hin. cbn in Hin.
    assert (Hc : (r', g') = (r, (a :: fst g, snd g)) \/ In (r', g') (Z1 ++ Z2)) by (rewrite in_app_iff; intuition).
    destruct Hc as [Hc|Hc].
    + injection Hc as -> ->. rewrite N.eqb_refl. repeat split; auto; [lia|constructor; auto|discriminate].
    + destruct (N.eqb_spec r r') as [<-|]; [exfalso; apply (H _ Hc); auto|].
      destruct (zi_g _ _ _ _ Z r' g') as (B1 & B2 & B3 & B4); [rewrite in_app_iff in *; cbn; tauto|]. repeat split; auto. lia.
  - intros r' Hn. rewrite rset_eq. rewrite map_app in Hn. cbn in Hn. rewrite in_app_iff in Hn. cbn in Hn.
    destruct (N.eqb_spec r r'); [tauto|]. apply (zi_n _ _ _ _ Z). rewrite map_app, in_app_iff. cbn. tauto.
  - intros k' r'. rewrite HE, (zi_e _ _ _ _ Z k' r'). split.
    + intros [[-> ->]|(g' & Hin & Hk')].
      * exists (a :: fst g, snd g). rewrite in_app_iff. cbn. auto.
      * rewrite in_app_iff in Hin. cbn in Hin. destruct Hin as [Hin|[Hin|Hin]].
        -- exists g'. rewrite in_app_iff. auto.
        -- injection Hin as <- <-. exists (a :: fst g, snd g). rewrite in_app_iff. cbn. auto.
        -- exists g'. rewrite in_app_iff. cbn. auto.
    + intros (g' & Hin & Hk'). rewrite in_app_iff in Hin. cbn in Hin. destruct Hin as [Hin|[Hin|Hin]].
      * right. exists g'. rewrite in_app_iff. auto.
      * injection Hin as <- <-. cbn in Hk'. destruct Hk' as [<-|Hk']; auto. right. exists g. rewrite in_app_iff. cbn. auto.
      * right. exists g'. rewrite in_app_iff. cbn. auto.
Qed.

Lemma zinv_ext h h' E E' fr zs : zinv h E fr zs -> (forall r, h r = h' r) -> (forall k r, In (k, r) E <-> In (k, r) E') -> zinv h' E' fr zs.
Proof.
  intros [A1 A2 A3 A4] Hh HE. constructor; auto.
  - intros r g Hin. rewrite <- Hh. auto.
  - intros r Hn. rewrite <- Hh. auto.
  - intros k r. rewrite <- HE. auto.
Qed.

(* ---------- accounting ---------- *)
Lemma data_bytes_app a b : data_bytes (a ++ b) = (data_bytes a + data_bytes b)%N.
Proof. induction a as [|g a IH]; [reflexivity|]. unfold data_bytes in *. cbn [app fold_right]. rewrite IH. lia. Qed.
Lemma data_bytes_cons g a : data_bytes (g :: a) = (snd (snd g) + data_bytes a)%N.
Proof. reflexivity. Qed.

Lemma tinv_same s s' : tinv s -> root s' = root s -> order s' = order s -> kobj s' = kobj s -> (bfresh s <= bfresh s')%N -> tinv s'.
Proof.
  intros [A B C] E1 E2 E3 E4. constructor; rewrite ?E1, ?E2, ?E3; auto.
  destruct (root s); auto. destruct B as (B1 & B2 & B3 & B4 & B5). split; auto. split; auto. split; auto. split; auto.
  intros a Ha. specialize (B5 a Ha). lia.
Qed.

Definition meta_base (zs : list zgrp) : N := (40 + 24 * N.of_nat (length zs))%N.
Definition acct (s : bpt) (zs : list zgrp) : Prop :=
  minv s (meta_base zs) /\ dsize s = wrap64 (data_bytes (map snd zs)) /\ nent s = wrap64 (N.of_nat (length zs)).
Definition binv (s : bpt) (zs : list zgrp) : Prop :=
  tinv s /\ acct s zs /\ zinv (recs s) (rents (root s)) (bfresh s) zs.

Lemma minv_same s s' X X' : minv s X -> root s' = root s -> order s' = order s -> X' = X -> meta s' = meta s -> minv s' X'.
Proof. unfold minv. intros H -> -> -> ->. exact H. Qed.

Lemma wrap32_pred n : (1 <= n)%nat -> (N.of_nat n < 2 ^ 32)%N ->
  wrap32 (wrap32 (N.of_nat n) + (2 ^ 32 - 1)) = N.of_nat (n - 1).
Proof.
  unfold wrap32. change (2 ^ 32)%N with 4294967296%N. intros H1 H2. rewrite (N.mod_small (N.of_nat n)) by lia.
  replace (N.of_nat n + (4294967296 - 1))%N with (N.of_nat (n - 1) + 1 * 4294967296)%N by lia.
  rewrite N.mod_add by lia. apply N.mod_small. lia.
Qed.
Lemma wrap32_succ n : wrap32 (wrap32 (N.of_nat n) + 1) = wrap32 (N.of_nat (S n)).
Proof.
  unfold wrap32. change (2 ^ 32)%N with 4294967296%N. rewrite N.add_mod_idemp_l by lia. f_equal. lia.
Qed.

Lemma sub64_w' x y b : x = (y + b)%N -> sub64 (wrap64 x) b = wrap64 y.
Proof. intros ->. apply sub64_w. Qed.

Lemma unref_ok s k r g Z1 Z2 : tinv s -> acct s (Z1 ++ (r, g) :: Z2) -> recs s r = Some (rec_of g) ->
  NoDup (fst g) -> In k (fst g) -> (N.of_nat (length (fst g)) < 2 ^ 32)%N ->
  exists s', unref_record s r = Ok s' /\ tinv s' /\ acct s' (Z1 ++ zopt (r, (strip k (fst g), snd g)) ++ Z2) /\
    root s' = root s /\ order s' = order s /\ bfresh s' = bfresh s /\
    recs s' = rset (recs s) r (if has_name (strip k (fst g), snd g) then Some (rec_of (strip k (fst g), snd g)) else None).
Proof.
  intros T (M & D & C) Hr Hnd Hk Hb. unfold unref_record, deref. rewrite Hr. cbn [obind rec_of rref rdata rsize].
  pose proof (strip_length k (fst g) Hnd Hk) as HL.
  rewrite wrap32_pred by lia.
  assert (E1 : N.of_nat (length (fst g) - 1) = N.of_nat (length (strip k (fst g)))) by lia. rewrite E1.
  unfold zopt. cbn [snd]. unfold has_name. cbn [fst].
  destruct (strip k (fst g)) as [|n l] eqn:Es.
  - change (length []) with 0. cbn [N.ltb N.of_nat N.compare]. cbn iota. eexists. split; [reflexivity|]. 
    rewrite app_length in *. cbn [length app] in *.
    split; [apply (tinv_same s); auto; cbn; lia|]. split; [|repeat split; auto].
    unfold acct, minv, meta_base in *. cbn [root meta dsize nent order]. rewrite !app_length in *. cbn [length] in *.
    rewrite !map_app in *. cbn [map] in D. rewrite data_bytes_app, data_bytes_cons in D. cbn [snd] in D.
    repeat split.
    + rewrite M. apply sub64_w'. lia.
    + rewrite D, data_bytes_app. apply sub64_w'. lia.
    + rewrite C. apply sub64_w'. lia.
  - destruct (N.ltb_spec 0 (N.of_nat (length (n :: l)))) as [_|X]; [|cbn [length] in X; lia].
    eexists. split; [reflexivity|]. split; [apply (tinv_same s); auto; cbn; lia|]. split.
    + unfold acct, minv, meta_base in *. cbn [root meta dsize nent order app]. rewrite !app_length in *. cbn [length] in *.
      rewrite !map_app in *. cbn [map] in *. rewrite data_bytes_app, data_bytes_cons in *. auto.
    + repeat split. cbn [recs]. f_equal. f_equal. unfold rec_of. cbn [fst snd]. f_equal. symmetry. unfold wrap32. apply N.mod_small.
      change (2 ^ 32)%N with 4294967296%N in *. cbn [length] in *. lia.
Qed.

Lemma overwrite_sim s zs k r d z : binv s zs -> In (k, r) (rents (root s)) ->
  exists s' zs', overwrite s r d z = Ok s' /\ binv s' zs' /\ map snd zs' = gwrite k (d, z) (map snd zs) /\ order s' = order s.
Proof.
  intros (T & (M & D & C) & Z) Hin.
  destruct (zsplit _ _ _ _ k r Z) as (Z1 & g & Z2 & -> & Hk & Ho); auto.
  { intros r' Hr'. eapply rents_inj; eauto. }
  destruct (zi_g _ _ _ _ Z r g) as (A1 & A2 & A3 & A4); [apply in_app_iff; right; left; auto|].
  unfold overwrite, deref. rewrite A4. cbn [obind]. eexists. exists (Z1 ++ (r, (fst g, (d, z))) :: Z2).
  split; [reflexivity|]. split; [|split; [symmetry; apply gwrite_split; auto|reflexivity]].
  split; [apply (tinv_same s); auto; cbn; lia|]. split.
  - unfold acct, minv, meta_base in *. cbn [root meta dsize nent order app rec_of rsize]. rewrite !app_length in *. cbn [length] in *.
    rewrite !map_app in *. cbn [map] in *. rewrite data_bytes_app, data_bytes_cons in *. cbn [snd] in *. repeat split; auto.
    rewrite D. replace (data_bytes (map snd Z1) + (snd (snd g) + data_bytes (map snd Z2)))%N with
      (data_bytes (map snd Z1) + data_bytes (map snd Z2) + snd (snd g))%N by lia.
    rewrite sub64_w, add64_w. f_equal. lia.
  - cbn [recs root bfresh]. apply (zl_write _ _ _ k r g Z1 Z2 (d, z) Z Ho).
Qed.

Lemma zinv_fresh s zs : binv s zs -> ~ In (bfresh s) (map fst zs).
Proof.
  intros (T & _ & Z) Hin. apply in_map_iff in Hin as ([r g] & E & Hin). cbn in E. subst.
  destruct (zi_g _ _ _ _ Z _ _ Hin). lia.
Qed.

Lemma add_new_sim s zs k d z : binv s zs -> ~ In k (rkeys (root s)) ->
  exists s' zs', (let (s1, r) := make_record s d z in insert s1 k r) = Ok s' /\ binv s' zs' /\
    map snd zs' = gwrite k (d, z) (map snd zs) /\ order s' = order s.
Proof.
  intros Hb Hn. pose proof (zinv_fresh _ _ Hb) as Hf. destruct Hb as (T & (M & D & C) & Z). unfold make_record.
  match goal with |- context [insert ?x] => set (s1 := x) end.
  destruct (insert_ok s1 k (bfresh s) (meta_base (zs ++ [(bfresh s, ([k], (d, z)))])) {| rdata := d; rsize := z; rref := 0 |})
    as (s' & t' & E1 & E2 & E3 & E4 & E5 & E6 & E7 & E8 & E9 & E10); auto.
  - apply (tinv_same s); auto; cbn; lia.
  - unfold minv, meta_base in *. cbn [s1 meta root order]. rewrite M, add64_w, app_length. cbn [length]. f_equal. lia.
  - cbn. unfold rset. rewrite N.eqb_refl. reflexivity.
  - exists s', (zs ++ [(bfresh s, ([k], (d, z)))]). split; auto. split; [|split; [|exact E6]].
    + split; auto. split.
      * split; auto. rewrite E7, E8. cbn [s1 dsize nent]. rewrite D, C, !add64_w, map_app, data_bytes_app, app_length.
        cbn [map]. rewrite data_bytes_cons. change (data_bytes []) with 0%N. cbn [snd length]. split; f_equal; lia.
      * rewrite E2, E9, E10. cbn [rents s1 recs bfresh root rdata rsize rref] in *. rewrite E3.
        eapply zinv_ext; [eapply (zl_new (recs s) (rents (root s)) _ (bfresh s) (bfresh s + 1 + 1)%N k (bfresh s) zs (d, z)); eauto; try lia|..].
        -- intros k' r'. apply sins_in.
        -- intros r. unfold rset. destruct (bfresh s =? r)%N; auto.
        -- tauto.
    + unfold gwrite. rewrite (glookup_none _ _ _ _ _ Z) by (rewrite rents_keys; auto). rewrite map_app. reflexivity.
Qed.

Definition small (zs : list zgrp) : Prop := forall r g, In (r, g) zs -> (N.of_nat (length (fst g)) < 2 ^ 32)%N.
Lemma names_app a b : names (a ++ b) = names a ++ names b.
Proof. apply flat_map_app. Qed.
Lemma small_in zs r g : small zs -> In (r, g) zs -> (N.of_nat (length (fst g)) < 2 ^ 32)%N.
Proof. intros H. apply H. Qed.

Lemma sdel_in k l k' r : In (k', r) (sdel k l) <-> In (k', r) l /\ k' <> k.
Proof. unfold sdel. rewrite filter_In. cbn [fst]. destruct (seq_spec k k'); cbn; intuition congruence. Qed.

Lemma remove_sim s zs k r : binv s zs -> small zs -> In (k, r) (rents (root s)) ->
  (forall g k', glookup k (map snd zs) = Some g -> In k' (fst g) -> k' = k \/ str_lt k k') ->
  exists s' zs', remove s k r = Ok s' /\ binv s' zs' /\ map snd zs' = gdel k (map snd zs) /\ order s' = order s.
Proof.
  intros (T & (M & D & C) & Z) Hsm Hin Hsafe.
  destruct (zsplit _ _ _ _ k r Z) as (Z1 & g & Z2 & -> & Hk & Ho); auto.
  { intros r' Hr'. eapply rents_inj; eauto. }
  assert (Hg : In (r, g) (Z1 ++ (r, g) :: Z2)) by (apply in_app_iff; right; left; auto).
  destruct (zi_g _ _ _ _ Z r g Hg) as (A1 & A2 & A3 & A4).
  destruct (remove_ok s k r _ T M Hin) as (s1 & E1 & E2 & E3 & E4 & E5 & E6 & E7 & E8 & E9).
  { intros k' Hk'. apply (zi_e _ _ _ _ Z) in Hk' as (g' & Hg' & Hk').
    assert (g' = g).
    { pose proof (zi_nd _ _ _ _ Z) as N. apply in_app_iff in Hg' as [Hg'|[Hg'|Hg']].
      - destruct (Ho (r, g')); [apply in_app_iff; auto|]. cbn in *. congruence.
      - congruence.
      - destruct (Ho (r, g')); [apply in_app_iff; auto|]. cbn in *. congruence. }
    subst g'. destruct (Hsafe g k' (glookup_split k r g Z1 Z2 Ho Hk) Hk'); auto. right. apply str_lt_slt; auto. }
  destruct (unref_ok s1 k r g Z1 Z2) as (s' & F1 & F2 & F3 & F4 & F5 & F6 & F7); auto.
  { split; [exact E4|]. rewrite E6, E7. auto. }
  { congruence. }
  { eapply small_in; eauto. }
  exists s', (Z1 ++ zopt (r, (strip k (fst g), snd g)) ++ Z2). split; [congruence|]. split; [|split; [symmetry; eapply gdel_split; eauto|congruence]].
  split; auto. split; auto. rewrite F4, E2, F6, E8, F7, E9.
  eapply zl_drop; eauto. intros k' r'. apply sdel_in.
Qed.

Lemma add_sim s zs k d z : binv s zs ->
  exists s' zs', bptree_add s k d z = Ok s' /\ binv s' zs' /\ map snd zs' = gwrite k (d, z) (map snd zs) /\ order s' = order s.
Proof.
  intros Hb. pose proof Hb as (T & _ & _). unfold bptree_add. rewrite bfind_ok by auto. cbn [obind].
  destruct (sfind k (rents (root s))) as [r|] eqn:E.
  - apply overwrite_sim; auto. apply bfind_in; auto.
  - apply add_new_sim; auto. apply bfind_none; auto.
Qed.

Lemma del_sim s zs k : binv s zs -> small zs ->
  (forall g k', glookup k (map snd zs) = Some g -> In k' (fst g) -> k' = k \/ str_lt k k') ->
  exists s' zs', bptree_del s k = Ok s' /\ binv s' zs' /\ map snd zs' = gdel k (map snd zs) /\ order s' = order s.
Proof.
  intros Hb Hsm Hs. pose proof Hb as (T & _ & Z). unfold bptree_del. rewrite bfind_ok by auto. cbn [obind].
  destruct (sfind k (rents (root s))) as [r|] eqn:E.
  - apply remove_sim; auto. apply bfind_in; auto.
  - apply bfind_none in E; auto. rewrite <- rents_keys in E by auto. exists s, zs. split; auto. split; auto. split; auto. symmetry. eapply gdel_absent; eauto.
Qed.

Lemma lookup_in s zs k r : binv s zs -> small zs -> In (k, r) (rents (root s)) ->
  exists g, glookup k (map snd zs) = Some g /\ recs s r = Some {| rdata := fst (snd g); rsize := snd (snd g); rref := N.of_nat (length (fst g)) |}.
Proof.
  intros (T & _ & Z) Hsm Hin. destruct (zsplit _ _ _ _ k r Z) as (Z1 & g & Z2 & -> & Hk & Ho); auto.
  { intros r' Hr'. eapply rents_inj; eauto. }
  assert (Hg : In (r, g) (Z1 ++ (r, g) :: Z2)) by (apply in_app_iff; right; left; auto).
  destruct (zi_g _ _ _ _ Z r g Hg) as (A1 & A2 & A3 & A4).
  exists g. split; [apply glookup_split; auto|]. rewrite A4. unfold rec_of. repeat f_equal. unfold wrap32. apply N.mod_small.
  eapply small_in; eauto.
Qed.

Lemma lookup_sim s zs k : binv s zs -> small zs -> bptree_lookup s k = Ok (option_map out (glookup k (map snd zs))).
Proof.
  intros Hb Hsm. pose proof Hb as (T & _ & Z). unfold bptree_lookup. rewrite bfind_ok by auto. cbn [obind].
  destruct (sfind k (rents (root s))) as [r|] eqn:E.
  - apply bfind_in in E; auto. destruct (lookup_in s zs k r Hb Hsm E) as (g & -> & Hr). unfold deref. rewrite Hr. reflexivity.
  - apply bfind_none in E; auto. rewrite <- rents_keys in E by auto. rewrite (glookup_none _ _ _ _ _ Z E). reflexivity.
Qed.

Lemma update_sim s zs k cb : binv s zs -> small zs -> safe_step (map snd zs) (BUpdate k cb) ->
  exists s' zs', bptree_update s k cb = Ok s' /\ binv s' zs' /\ map snd zs' = fst (gstep (map snd zs) (BUpdate k cb)) /\ order s' = order s.
Proof.
  intros Hb Hsm Hs. pose proof Hb as (T & _ & Z). unfold bptree_update. rewrite bfind_ok by auto. cbn [obind].
  unfold safe_step, removes in Hs. cbn [gstep fst].
  destruct (sfind k (rents (root s))) as [r|] eqn:E.
  - apply bfind_in in E; auto. destruct (lookup_in s zs k r Hb Hsm E) as (g & Eg & Hr). unfold deref at 1. rewrite Hr. cbn [obind rdata rsize rref].
    rewrite Eg in *. cbn [option_map] in *. unfold out in *. destruct (cb (Some _)) as [[| |] [d z]].
    + exists s, zs. auto.
    + apply overwrite_sim; auto.
    + apply remove_sim; auto.
  - apply bfind_none in E; auto. pose proof E as E'. rewrite <- rents_keys in E by auto. pose proof (glookup_none _ _ _ _ _ Z E) as Eg. rewrite Eg. cbn [option_map].
    destruct (cb None) as [[| |] [d z]].
    + exists s, zs. auto.
    + apply add_sim; auto.
    + exists s, zs. split; auto. split; auto. split; auto. symmetry. eapply gdel_absent; eauto.
Qed.

Lemma rec_inc g a h r : h r = Some (rec_of g) ->
  ref_record h r = Ok (rset h r (Some (rec_of (a :: fst g, snd g)))).
Proof. intros H. unfold ref_record. rewrite H. cbn [rec_of rdata rsize rref]. rewrite wrap32_succ. reflexivity. Qed.

Lemma alias_new_sim s zs k a r : binv s zs -> In (k, r) (rents (root s)) -> ~ In a (rkeys (root s)) ->
  exists s' zs', insert s a r = Ok s' /\ binv s' zs' /\ map snd zs' = gname k a (map snd zs) /\ order s' = order s.
Proof.
  intros (T & (M & D & C) & Z) Hin Hn. destruct (zsplit _ _ _ _ k r Z) as (Z1 & g & Z2 & -> & Hk & Ho); auto.
  { intros r' Hr'. eapply rents_inj; eauto. }
  assert (Hg : In (r, g) (Z1 ++ (r, g) :: Z2)) by (apply in_app_iff; right; left; auto).
  destruct (zi_g _ _ _ _ Z r g Hg) as (A1 & A2 & A3 & A4).
  destruct (insert_ok s a r _ _ T M Hn A4) as (s' & t' & E1 & E2 & E3 & E4 & E5 & E6 & E7 & E8 & E9 & E10).
  assert (Hn' : ~ In a (map fst (rents (root s)))) by (rewrite rents_keys; auto).
  exists s', (Z1 ++ (r, (a :: fst g, snd g)) :: Z2). split; auto. split; [|split; [symmetry; eapply gname_split; eauto|auto]].
  split; auto. split.
  - unfold acct, meta_base, minv in *. rewrite E7, E8. rewrite !app_length in *. cbn [length] in *. rewrite !map_app in *. cbn [map] in *.
    rewrite data_bytes_app, data_bytes_cons in *. auto.
  - rewrite E2, E9, E10. cbn [rents rec_of rdata rsize rref]. rewrite E3, wrap32_succ.
    eapply (zl_name _ _ _ _ _ k a r g); eauto; [lia|]. intros k' r'. apply sins_in.
Qed.

Lemma alias_force_sim s zs k a r ra t : binv s zs -> small zs -> root s = Some t -> In (k, r) (rents (root s)) -> In (a, ra) (rents (root s)) -> r <> ra ->
  exists s' zs', (let! h := ref_record (recs s) r in
                let! t' := set_ptr t a r in
                let! s' := unref_record {| root := Some t'; order := order s; meta := meta s; dsize := dsize s;
                                           nent := nent s; recs := h; kobj := kobj s; bfresh := bfresh s |} ra in
                Ok (s', 0%Z)) = Ok (s', 0%Z) /\ binv s' zs' /\ map snd zs' = gname k a (map snd zs) /\ order s' = order s.
Proof.
  intros (T & Hacc & Z) Hsm Er Hk Ha Hne.
  assert (Hka : k <> a) by (intros ->; apply Hne; eapply rents_inj; eauto).
  destruct (zsplit _ _ _ _ a ra Z) as (Z1 & g & Z2 & -> & Hag & Ho); auto.
  { intros r' Hr'. eapply rents_inj; eauto. }
  assert (Hg : In (ra, g) (Z1 ++ (ra, g) :: Z2)) by (apply in_app_iff; right; left; auto).
  destruct (zi_g _ _ _ _ Z ra g Hg) as (A1 & A2 & A3 & A4).
  set (g1 := (strip a (fst g), snd g)) in *.
  pose proof (zl_drop _ _ (sdel a (rents (root s))) _ a ra g Z1 Z2 Z Ho ltac:(intros; apply sdel_in)) as Zd.
  fold g1 in Zd. set (h1 := rset (recs s) ra _) in Zd.
  destruct (zsplit _ _ _ _ k r Zd) as (Y1 & gk & Y2 & EY & Hkg & HoY); auto.
  { intros r' Hr'. apply sdel_in in Hr' as [Hr' _]. eapply rents_inj; eauto. }
  { apply sdel_in; auto. }
  rewrite EY in Zd.
  assert (Hgk : In (r, gk) (Y1 ++ (r, gk) :: Y2)) by (apply in_app_iff; right; left; auto).
  destruct (zi_g _ _ _ _ Zd r gk Hgk) as (B1 & B2 & B3 & B4).
  unfold h1, rset in B4. destruct (N.eqb_spec ra r) as [|_]; [congruence|].
  rewrite (rec_inc gk a _ _ B4). cbn [obind].
  pose proof T as [To Tt Tk]. rewrite Er in Tt. destruct Tt as ([h W] & Ss & Ch).
  assert (Hak : In a (keys t)).
  { pose proof (rents_keys s T) as X. rewrite Er in X. cbn in X. rewrite <- X. apply in_map_iff. exists (a, ra). split; auto. rewrite Er in Ha. exact Ha. }
  destruct (set_ptr_ok (order s) a r To h 1 t W (le_n 1) Ss Hak) as (t' & G1 & G2 & G3 & G4 & G5 & G6 & G7).
  rewrite G1. cbn [obind].
  match goal with |- context [unref_record ?x _] => set (s1 := x) end.
  destruct (unref_ok s1 a ra g Z1 Z2) as (s' & F1 & F2 & F3 & F4 & F5 & F6 & F7); auto.
  - constructor; cbn; auto.
    + rewrite G3, G4. eauto.
    + intros j. rewrite Tk, Er. unfold tot. cbn. rewrite G3, G5. reflexivity.
  - destruct Hacc as (M & D & C). split; [|auto]. unfold minv in *. cbn [s1 meta root order rnodes rkeys]. rewrite M, Er. cbn [rnodes rkeys]. rewrite G3, G6. reflexivity.
  - cbn. unfold rset. destruct (N.eqb_spec r ra); [congruence|]. auto.
  - eapply small_in; eauto.
  - rewrite F1. cbn [obind]. exists s', (Y1 ++ (r, (a :: fst gk, snd gk)) :: Y2). split; [reflexivity|].
    fold g1 in F3. rewrite EY in F3.
    split; [|split; [|exact F5]].
    + split; auto. split.
      * unfold acct, meta_base, minv in *. rewrite !app_length in *. cbn [length] in *. rewrite !map_app in *. cbn [map] in *.
        rewrite data_bytes_app, data_bytes_cons in *. auto.
      * rewrite F4, F6, F7. cbn [s1 root rents recs bfresh]. rewrite G7.
        eapply zinv_ext.
        -- eapply (zl_name _ _ (map (fun e => if seq a (fst e) then (a, r) else e) (ents t)) (bfresh s) (bfresh s) k a r gk Y1 Y2 Zd HoY).
           ++ rewrite in_map_iff. intros ([a' x] & E & Hx). cbn in E. subst. apply sdel_in in Hx as [_ Hx]. congruence.
           ++ lia.
           ++ intros k' r'. rewrite sdel_in, in_map_iff, Er. cbn [rents]. split.
              ** intros ([k2 r2] & E & Hx). cbn [fst] in E. destruct (seq_spec a k2) as [->|Hd].
                 --- injection E as <- <-. auto.
                 --- injection E as -> ->. right. split; auto.
              ** intros [[-> ->]|[Hx Hd]].
                 --- rewrite Er in Ha. exists (a, ra). cbn [fst]. rewrite seq_refl. auto.
                 --- exists (k', r'). cbn [fst]. rewrite (proj2 (seq_false a k')) by auto. auto.
        -- intros r'. unfold h1, g1, rset. destruct (N.eqb_spec r r'), (N.eqb_spec ra r'); auto; congruence.
        -- tauto.
    + rewrite gname_del by auto. rewrite (gdel_split _ _ _ a ra g Z1 Z2 Z Ho). fold g1. rewrite EY.
      symmetry. eapply gname_split; eauto. rewrite in_map_iff. intros ([a' x] & E & Hx). cbn in E. subst. apply sdel_in in Hx as [_ Hx]. congruence.
Qed.

Lemma step_sim s zs o : binv s zs -> small zs -> safe_step (map snd zs) o ->
  exists s' zs', bstep s o = Ok (s', snd (gstep (map snd zs) o)) /\ binv s' zs' /\ map snd zs' = fst (gstep (map snd zs) o) /\ order s' = order s.
Proof.
  intros Hb Hsm Hs. destruct o as [k d z|k a f|k cb|k].
  - destruct (add_sim s zs k d z Hb) as (s' & zs' & E & R). exists s', zs'. cbn [bstep]. rewrite E. auto.
  - pose proof Hb as (T & _ & Z). cbn [bstep gstep]. unfold bptree_add_alias. rewrite bfind_ok by auto. cbn [obind].
    destruct (sfind k (rents (root s))) as [r|] eqn:E.
    + apply bfind_in in E; auto. destruct (lookup_in s zs k r Hb Hsm E) as (g & Eg & Hr). rewrite Eg. rewrite bfind_ok by auto. cbn [obind].
      destruct (sfind a (rents (root s))) as [ra|] eqn:Ea.
      * apply bfind_in in Ea; auto. destruct (lookup_in s zs a ra Hb Hsm Ea) as (ga & Ega & Hra).
        assert (Hex : existsb (fun g' => mem a (fst g')) (map snd zs) = true).
        { apply find_some in Ega as [X Y]. apply existsb_exists. eauto. }
        rewrite Hex. cbn [andb].
        destruct (N.eqb_spec r ra) as [->|Hne].
        -- assert (mem a (fst g) = true) as ->.
           { destruct (zsplit _ _ _ _ a ra Z) as (Z1 & g1 & Z2 & -> & Hk & Ho); auto; [intros r' Hr'; eapply rents_inj; eauto|].
             rewrite (glookup_split a ra g1) in Ega by auto. injection Ega as <-.
             apply (zi_e _ _ _ _ Z) in E as (g2 & Hg2 & Hk2).
             assert (g2 = g1) as ->.
             { apply in_app_iff in Hg2 as [Hg2|[Hg2|Hg2]]; [|congruence|];
                 (destruct (Ho (ra, g2)) as [_ X]; [apply in_app_iff; auto|]; cbn in X; congruence). }
             rewrite (glookup_split k ra g1) in Eg; auto; [injection Eg as <-; apply mem_in; auto|].
             intros p Hp. destruct (Ho p Hp) as [_ X]. split; auto. intros Hk3.
             destruct p as [rp gp]. apply X. cbn. eapply (rents_inj s k); eauto; apply (zi_e _ _ _ _ Z).
             - exists gp. split; auto. rewrite in_app_iff in *. cbn. tauto.
             - exists g1. split; [apply in_app_iff; cbn|]; auto. }
           exists s, zs. auto.
        -- assert (mem a (fst g) = false) as ->.
           { apply mem_false. intros X. apply Hne.
             destruct (zsplit _ _ _ _ k r Z) as (Z1 & g1 & Z2 & -> & Hk & Ho); auto; [intros r' Hr'; eapply rents_inj; eauto|].
             rewrite (glookup_split k r g1) in Eg by auto. injection Eg as <-.
             eapply (rents_inj s a); eauto. apply (zi_e _ _ _ _ Z). exists g1. split; auto. apply in_app_iff. cbn. auto. }
           destruct f; cbn [negb]; [|exists s, zs; auto].
           assert (Ex : exists t, root s = Some t) by (destruct (root s); [eauto|destruct E]). destruct Ex as [t Er]. rewrite Er.
           destruct (alias_force_sim s zs k a r ra t Hb Hsm Er E Ea Hne) as (s' & zs' & E1 & R). exists s', zs'. rewrite E1. auto.
      * apply bfind_none in Ea; auto.
        assert (Hna : forall g', In g' (map snd zs) -> mem a (fst g') = false).
        { intros g' Hg'. apply in_map_iff in Hg' as ([r' g2] & <- & Hg'). apply mem_false. cbn. eapply absent; eauto. rewrite rents_keys; auto. }
        assert (mem a (fst g) = false) as -> by (apply Hna; apply find_some in Eg; tauto).
        assert (existsb (fun g' => mem a (fst g')) (map snd zs) = false) as ->.
        { apply Bool.not_true_iff_false. rewrite existsb_exists. intros (g' & Hg' & X). rewrite Hna in X by auto. discriminate. }
        cbn [andb]. destruct (alias_new_sim s zs k a r Hb E Ea) as (s' & zs' & E1 & R). exists s', zs'. rewrite E1. auto.
    + apply bfind_none in E; auto. rewrite <- rents_keys in E by auto. rewrite (glookup_none _ _ _ _ _ Z E). exists s, zs. auto.
  - destruct (update_sim s zs k cb Hb Hsm Hs) as (s' & zs' & E & R). exists s', zs'. cbn [bstep]. rewrite E. auto.
  - destruct (del_sim s zs k Hb Hsm) as (s' & zs' & E & R).
    { intros g k' Hg. apply Hs; auto. }
    exists s', zs'. cbn [bstep]. rewrite E. auto.
Qed.
