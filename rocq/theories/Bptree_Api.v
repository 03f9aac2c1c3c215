(* The public operations of the B+ tree against the specification. *)
From Verif Require Import Base Bptree_Model Bptree_Arr Bptree_Proofs Bptree_Ins Bptree_Del Bptree_Spec.
From Coq Require Import Sorted Permutation.

(* ---------- arithmetic modulo 2^64 ---------- *)
Lemma wrap64_idem a b : wrap64 (wrap64 a + b) = wrap64 (a + b).
Proof. unfold wrap64. rewrite N.add_mod_idemp_l by discriminate. reflexivity. Qed.
Lemma add64_w a b : add64 (wrap64 a) b = wrap64 (a + b).
Proof. apply wrap64_idem. Qed.
Lemma sub64_w a b : sub64 (wrap64 (a + b)) b = wrap64 a.
Proof.
  unfold sub64. rewrite wrap64_idem. unfold wrap64. change (2 ^ 64)%N with 18446744073709551616%N.
  pose proof (N.div_mod b 18446744073709551616 ltac:(discriminate)) as D.
  pose proof (N.mod_upper_bound b 18446744073709551616 ltac:(discriminate)) as U.
  set (q := (b / 18446744073709551616)%N) in *. set (m := (b mod 18446744073709551616)%N) in *.
  replace (a + b + (18446744073709551616 - m))%N with (a + (q + 1) * 18446744073709551616)%N by lia.
  apply N.mod_add. discriminate.
Qed.

(* ---------- key reference counts ---------- *)
Definition kval (n : nat) : option N := if n =? 0 then None else Some (N.of_nat n).

Lemma srep_zero l : forall f f' j, srep l f f' -> f j = 0 -> f' j = 0.
Proof.
  induction l as [|[k|k] l IH]; cbn; intros f f' j H E.
  - rewrite <- H. auto.
  - destruct H as [H1 H2]. eapply IH; eauto. unfold fadd. destruct (seq_spec j k); [subst; lia|lia].
  - destruct H as [H1 H2]. eapply IH; eauto. unfold fsub. lia.
Qed.
Lemma kset_eq f k v j : kset f k v j = if seq k j then v else f j.
Proof. reflexivity. Qed.

Lemma kreplay_keep l : forall f f' ko m, srep l f f' -> (forall j, 1 <= f j -> 1 <= f' j) -> (forall j, ko j = kval (f j)) ->
  exists ko', kreplay l (ko, m) = Ok (ko', m) /\ forall j, ko' j = kval (f' j).
Proof.
  induction l as [|[k|k] l IH]; cbn [srep kreplay]; intros f f' ko m H Hk Ho.
  - exists ko. split; auto. intros j. rewrite Ho, H. reflexivity.
  - destruct H as [H1 H2]. cbn [kstep fst snd]. rewrite Ho. unfold kval. destruct (Nat.eqb_spec (f k) 0); [lia|]. cbn [obind].
    eapply IH; eauto.
    + intros j. unfold fadd. destruct (seq_spec j k); [subst; auto|]. rewrite Nat.add_0_r. auto.
    + intros j. rewrite kset_eq. unfold fadd. rewrite (seq_sym k j). destruct (seq_spec j k) as [->|].
      * unfold kval. destruct (Nat.eqb_spec (f k + 1) 0); [lia|]. f_equal. lia.
      * rewrite Nat.add_0_r. apply Ho.
  - destruct H as [H1 H2]. cbn [kstep fst snd]. rewrite Ho. unfold kval. destruct (Nat.eqb_spec (f k) 0); [lia|].
    assert (H3 : 2 <= f k).
    { assert (f k <> 1); [|lia]. intros E. pose proof (srep_zero _ _ _ k H2) as Z.
      unfold fsub in Z. rewrite seq_refl in Z. specialize (Hk k). lia. }
    destruct (N.eqb_spec (N.of_nat (f k)) 0); [lia|]. destruct (N.eqb_spec (N.of_nat (f k)) 1); [lia|]. cbn [obind].
    eapply IH; eauto.
    + intros j. unfold fsub. destruct (seq_spec j k); [subst; intros; apply Hk; lia|]. rewrite Nat.sub_0_r. auto.
    + intros j. rewrite kset_eq. unfold fsub. rewrite (seq_sym k j). destruct (seq_spec j k) as [->|].
      * unfold kval. destruct (Nat.eqb_spec (f k - 1) 0); [lia|]. f_equal. lia.
      * rewrite Nat.sub_0_r. apply Ho.
Qed.

Lemma kreplay_drop x l : forall f f' ko m, srep l f f' -> 1 <= f x -> f' x = 0 -> (forall j, j <> x -> 1 <= f j -> 1 <= f' j) ->
  (forall j, ko j = kval (f j)) ->
  exists ko', kreplay l (ko, m) = Ok (ko', sub64 m (key_size x)) /\ forall j, ko' j = kval (f' j).
Proof.
  induction l as [|[k|k] l IH]; cbn [srep kreplay]; intros f f' ko m H Hx Hx' Hk Ho.
  - rewrite H in Hx. lia.
  - destruct H as [H1 H2]. cbn [kstep fst snd]. rewrite Ho. unfold kval. destruct (Nat.eqb_spec (f k) 0); [lia|]. cbn [obind].
    eapply IH; eauto.
    + unfold fadd. lia.
    + intros j Hj. unfold fadd. destruct (seq_spec j k); [subst; auto|]. rewrite Nat.add_0_r. auto.
    + intros j. rewrite kset_eq. unfold fadd. rewrite (seq_sym k j). destruct (seq_spec j k) as [->|].
      * unfold kval. destruct (Nat.eqb_spec (f k + 1) 0); [lia|]. f_equal. lia.
      * rewrite Nat.add_0_r. apply Ho.
  - destruct H as [H1 H2]. cbn [kstep fst snd]. rewrite Ho. unfold kval. destruct (Nat.eqb_spec (f k) 0); [lia|].
    destruct (N.eqb_spec (N.of_nat (f k)) 0); [lia|].
    destruct (N.eqb_spec (N.of_nat (f k)) 1) as [E1|E1]; cbn [obind].
    + assert (k = x) as ->.
      { destruct (seq_spec k x); auto. exfalso. pose proof (srep_zero _ _ _ k H2) as Z.
        unfold fsub in Z. rewrite seq_refl in Z. specialize (Hk k ltac:(auto)). lia. }
      eapply kreplay_keep; eauto.
      * intros j. unfold fsub. destruct (seq_spec j x); [subst; lia|]. rewrite Nat.sub_0_r. auto.
      * intros j. rewrite kset_eq. unfold fsub. rewrite (seq_sym x j). destruct (seq_spec j x) as [->|].
        -- unfold kval. destruct (Nat.eqb_spec (f x - 1) 0); [auto|lia].
        -- rewrite Nat.sub_0_r. apply Ho.
    + eapply IH; eauto.
      * unfold fsub. destruct (seq_spec x k); [subst; lia|lia].
      * intros j Hj. unfold fsub. destruct (seq_spec j k); [subst; intros; apply Hk; auto; lia|]. rewrite Nat.sub_0_r. auto.
      * intros j. rewrite kset_eq. unfold fsub. rewrite (seq_sym k j). destruct (seq_spec j k) as [->|].
        -- unfold kval. destruct (Nat.eqb_spec (f k - 1) 0); [lia|]. f_equal. lia.
        -- rewrite Nat.sub_0_r. apply Ho.
Qed.

Lemma srep_refs l : forall f, (forall j, In j l -> 1 <= f j) -> srep (map KRef l) f (fun j => f j + cnt j l).
Proof.
  induction l as [|x l IH]; cbn [map srep]; intros f H; [cbn; lia|]. split; [apply H; left; auto|].
  eapply srep_ext; [apply IH| |]; intros j; cbn beta; [|auto|].
  - intros Hj. unfold fadd. specialize (H j (or_intror Hj)). lia.
  - unfold fadd. cbn [cnt]. lia.
Qed.
Lemma srep_unrefs l : forall f f', (forall j, f j = f' j + cnt j l) -> srep (map KUnref l) f f'.
Proof.
  induction l as [|x l IH]; cbn [map srep]; intros f f' H.
  - intros j. rewrite H. cbn. lia.
  - split; [rewrite H; cbn [cnt]; rewrite seq_refl; lia|]. apply IH. intros j. unfold fsub. rewrite H. cbn [cnt].
    destruct (seq j x); lia.
Qed.

(* ---------- the leaf chain ---------- *)
Fixpoint linked (l : list (N * option N)) : Prop :=
  match l with
  | [] => True
  | (a, nx) :: r => match r with [] => nx = None | (b, _) :: _ => nx = Some b end /\ linked r
  end.
Definition chain (fr : N) (l : list (N * option N)) : Prop :=
  linked l /\ NoDup (map fst l) /\ forall a, In a (map fst l) -> (a < fr)%N.

Lemma linked_app A l : linked (A ++ l) -> linked l.
Proof. induction A as [|[a n] A IH]; cbn; auto. intros [_ H]; auto. Qed.
Lemma chain_ins fr l l' : chain fr l -> link_ins l l' fr -> chain (fr + 1) l'.
Proof.
  intros (H1 & H2 & H3) [->|(A & a & nx & B & -> & ->)].
  - repeat split; auto. intros a Ha. apply H3 in Ha. lia.
  - assert (P : Permutation (fr :: map fst (A ++ (a, nx) :: B)) (map fst (A ++ (a, Some fr) :: (fr, nx) :: B))).
    { rewrite !map_app. cbn [map fst].
      replace (map fst A ++ a :: fr :: map fst B) with ((map fst A ++ [a]) ++ fr :: map fst B) by (rewrite <- app_assoc; reflexivity).
      apply Permutation_cons_app. rewrite <- app_assoc. reflexivity. }
    repeat split.
    + clear H2 H3 P. induction A as [|[b n] A IH]; cbn in *.
      * destruct H1 as [H1 H1']. repeat split; auto.
      * destruct H1 as [H1 H1']. split; auto. destruct A as [|[c n'] A]; cbn in *; auto.
    + apply (Permutation_NoDup P). constructor; auto. intros X. apply H3 in X. lia.
    + intros x Hx. apply (Permutation_in x (Permutation_sym P)) in Hx. destruct Hx as [<-|Hx]; [lia|]. apply H3 in Hx. lia.
Qed.
Lemma chain_del fr l l' : chain fr l -> link_del l l' -> chain fr l'.
Proof.
  intros H. induction 1 as [|A a na b nb B _ IH]; auto. destruct IH as (H1 & H2 & H3). clear H. repeat split.
  - clear H2 H3. induction A as [|[c n] A IH]; cbn in *.
    + destruct H1 as [H1 [H1' H1'']]. split; auto.
    + destruct H1 as [H1 H1']. split; auto. destruct A as [|[c' n'] A]; cbn in *; auto.
  - rewrite map_app in *. cbn in *. pose proof (NoDup_remove_1 (map fst A ++ [a]) (map fst B) b) as X.
    rewrite <- !app_assoc in X. apply X. exact H2.
  - intros x Hx. apply H3. rewrite map_app in *. cbn in *. rewrite in_app_iff in *. cbn in *. tauto.
Qed.

(* ---------- structural invariant ---------- *)
Definition rents (t : option tree) : list entry := match t with None => [] | Some t => ents t end.
Definition rkeys (t : option tree) := match t with None => [] | Some t => keys t end.
Definition rseps (t : option tree) := match t with None => [] | Some t => seps t end.
Definition rnodes (t : option tree) := match t with None => 0 | Some t => nodes t end.
Definition tot (t : option tree) (j : list ascii) : nat := cnt j (rkeys t) + cnt j (rseps t).

Record tinv (s : bpt) : Prop := {
  ti_o : 4 <= order s;
  ti_t : match root s with
         | None => True
         | Some t => (exists h, wf (order s) h 1 t) /\ SS (keys t) /\ chain (bfresh s) (links t)
         end;
  ti_k : forall j, kobj s j = kval (tot (root s) j) }.

Lemma rents_keys s : tinv s -> map fst (rents (root s)) = rkeys (root s).
Proof.
  intros H. destruct (root s) as [t|] eqn:E; auto. destruct H as [Ho Ht _]. rewrite E in Ht. destruct Ht as [[h W] _].
  eapply ents_keys; eauto.
Qed.
Lemma rkeys_sorted s : tinv s -> SS (rkeys (root s)).
Proof. intros H. destruct H as [_ Ht _]. destruct (root s); [tauto|constructor]. Qed.
Lemma rents_inj s k r r' : tinv s -> In (k, r) (rents (root s)) -> In (k, r') (rents (root s)) -> r = r'.
Proof.
  intros H H1 H2. pose proof (SS_NoDup _ (rkeys_sorted s H)) as N. rewrite <- rents_keys in N by auto.
  pose proof (sfind_some _ _ _ N H1). pose proof (sfind_some _ _ _ N H2). congruence.
Qed.
Lemma bfind_ok s k : tinv s -> bfind s k = Ok (sfind k (rents (root s))).
Proof.
  intros [Ho Ht _]. unfold bfind. destruct (root s) as [t|]; [|reflexivity]. destruct Ht as ([h W] & Hs & _).
  destruct (find_exact_ok _ _ _ _ k Ho W (le_n 1) Hs) as (lf & i & ->). reflexivity.
Qed.
Lemma bfind_in s k r : tinv s -> sfind k (rents (root s)) = Some r <-> In (k, r) (rents (root s)).
Proof.
  intros H. split; [apply sfind_in|]. apply sfind_some. rewrite rents_keys by auto. apply SS_NoDup, rkeys_sorted; auto.
Qed.
Lemma bfind_none s k : tinv s -> sfind k (rents (root s)) = None <-> ~ In k (rkeys (root s)).
Proof.
  intros H. rewrite <- rents_keys by auto. split.
  - intros E Hin. apply in_map_iff in Hin as ([k' r] & <- & Hin). apply bfind_in in Hin; auto. cbn in *. congruence.
  - apply sfind_none.
Qed.

Lemma seps_in o h : 4 <= o -> forall m t j, wf o h m t -> In j (seps t) -> In j (keys t).
Proof.
  intros Ho. induction h as [|h IH]; intros m t j W Hj; inv_wf W; cbn in *; [contradiction|].
  assert (Hne : forall c, In c cs -> keys c <> []).
  { intros c Hin. eapply (keys_ne o h Ho); eauto. left. apply minn_pos; auto. }
  apply in_app_iff in Hj as [Hj|Hj].
  - unfold seps_of in Hj. apply in_map_iff in Hj as (c & <- & Hin).
    assert (Hin' : In c cs).
    { clear -Hin. induction cs as [|d cs IH]; [destruct Hin|]. destruct cs; [destruct Hin|]. cbn [removelast] in Hin.
      destruct Hin as [<-|Hin]; [left; auto|right; auto]. }
    apply in_flat_map. exists c. split; auto. apply maxk_in; auto.
  - apply in_flat_map in Hj as (c & Hin & Hj). apply in_flat_map. eauto.
Qed.
Lemma tot_pos s j : tinv s -> 1 <= tot (root s) j <-> In j (rkeys (root s)).
Proof.
  intros [Ho Ht _]. unfold tot. rewrite <- (cnt_in j (rkeys (root s))). split; [|lia]. intros H.
  destruct (root s) as [t|]; cbn in *; [|lia]. destruct Ht as ([h W] & _).
  destruct (Nat.eq_dec (cnt j (seps t)) 0); [lia|]. apply cnt_in. eapply seps_in; eauto. apply cnt_in. lia.
Qed.

Lemma name_bytes_cons k l : name_bytes (k :: l) = (key_size k + name_bytes l)%N.
Proof. reflexivity. Qed.
Lemma name_bytes_nil : name_bytes [] = 0%N.
Proof. reflexivity. Qed.
Lemma name_bytes_app a b : name_bytes (a ++ b) = (name_bytes a + name_bytes b)%N.
Proof. induction a as [|x a IH]; cbn [app]; rewrite ?name_bytes_cons, ?name_bytes_nil; [lia|]. rewrite IH. lia. Qed.
Lemma name_bytes_sins k r l : name_bytes (map fst (sins k r l)) = (key_size k + name_bytes (map fst l))%N.
Proof.
  induction l as [|e l IH].
  - reflexivity.
  - cbn [sins]. destruct (sgt k (fst e)); cbn [map fst]; rewrite ?name_bytes_cons, ?IH; lia.
Qed.
Lemma name_bytes_perm a b : Permutation a b -> name_bytes a = name_bytes b.
Proof. induction 1; rewrite ?name_bytes_cons; lia. Qed.
Lemma name_bytes_del k l : NoDup l -> In k l -> (name_bytes l = key_size k + name_bytes (filter (nk k) l))%N.
Proof.
  intros N H. apply in_split in H as (a & b & ->). apply NoDup_remove_2 in N.
  rewrite filter_app. cbn [filter]. unfold nk at 2. rewrite seq_refl. cbn [negb].
  rewrite !filter_nk_notin by (rewrite in_app_iff in N; tauto).
  rewrite !name_bytes_app. rewrite name_bytes_cons. lia.
Qed.

(* meta size: [X] is the part not due to nodes and keys *)
Definition minv (s : bpt) (X : N) : Prop :=
  meta s = wrap64 (X + N.of_nat (rnodes (root s)) * node_size (order s) + name_bytes (rkeys (root s)))%N.

Lemma sins_in k r l k' r' : In (k', r') (sins k r l) <-> (k' = k /\ r' = r) \/ In (k', r') l.
Proof.
  induction l as [|e l IH]; cbn; [intuition congruence|].
  destruct (sgt k (fst e)); cbn; [rewrite IH|]; intuition congruence.
Qed.
Lemma sins_sorted k r l : SS (map fst l) -> ~ In k (map fst l) -> SS (map fst (sins k r l)).
Proof.
  induction l as [|e l IH]; cbn; intros Hs Hn; [repeat constructor|].
  apply SS_cons in Hs as [Hs1 Hs2].
  destruct (sgt k (fst e)) eqn:E; cbn.
  - apply SS_cons. split; [apply IH; tauto|]. intros x Hx. apply sins_keys in Hx as [->|Hx]; auto. apply sgt_lt; auto.
  - apply sgt_false in E. assert (L : slt k (fst e)) by (destruct E as [->|]; auto; tauto).
    apply SS_cons. split; [apply SS_cons; auto|]. intros x [<-|Hx]; auto. eapply slt_trans; eauto.
Qed.

Lemma flat_map_pair {A B} (f : A -> list B) a b : flat_map f [a; b] = f a ++ f b.
Proof. cbn. rewrite app_nil_r. reflexivity. Qed.

Lemma insert_ok s k r X rc : tinv s -> minv s X -> ~ In k (rkeys (root s)) -> recs s r = Some rc ->
  exists s' t', insert s k r = Ok s' /\ root s' = Some t' /\ ents t' = sins k r (rents (root s)) /\ tinv s' /\ minv s' X /\
    order s' = order s /\ dsize s' = dsize s /\ nent s' = nent s /\ bfresh s' = (bfresh s + 1)%N /\
    recs s' = rset (recs s) r (Some {| rdata := rdata rc; rsize := rsize rc; rref := wrap32 (rref rc + 1) |}).
Proof.
  intros T M Hn Hr. pose proof T as T0. destruct T as [Ho Ht Hk]. unfold insert, make_bkey. cbn [fst snd].
  assert (Hz : tot (root s) k = 0) by (destruct (Nat.eq_dec (tot (root s) k) 0); auto; exfalso; apply Hn, tot_pos; auto; lia).
  rewrite Hk, Hz. change (kval 0) with (@None N). cbn iota. cbn [obind fst snd].
  unfold minv in M. destruct (root s) as [t|] eqn:Er.
  - destruct Ht as ([h W] & Hs & Hch). cbn [rkeys rents rnodes] in *.
    destruct (ins_ok (order s) k r (bfresh s) Ho h 1 t W (le_n 1) Hs Hn) as (x & Ex & P).
    unfold nodes_needed. rewrite (ip_need _ _ _ _ _ _ _ _ P). cbn [obind fst snd]. rewrite Ex. cbn [obind].
    destruct (ip_log _ _ _ _ _ _ _ _ P) as (l1 & l2 & Elog & Elate & Hcnt & Hkin).
    pose proof (ip_wf _ _ _ _ _ _ _ _ P) as Pwf. pose proof (ip_ents _ _ _ _ _ _ _ _ P) as Pe.
    pose proof (ip_links _ _ _ _ _ _ _ _ P) as Pl. pose proof (ip_nodes _ _ _ _ _ _ _ _ P) as Pn.
    pose proof (ip_sep _ _ _ _ _ _ _ _ P) as Ps.
    assert (Pk : flat_map keys (parts x) = map fst (sins k r (ents t))).
    { rewrite <- Pe. symmetry. eapply keys_of_parts. eauto. }
    assert (Hss : SS (map fst (sins k r (ents t)))).
    { apply sins_sorted; rewrite (ents_keys _ _ _ _ W); auto. }
    (* the resulting root *)
    set (res := match isplit x with
                | None => (il x, ilog x, iused x)
                | Some (bk, rt) => (Node [bk] [il x; rt], ilog x ++ [KRef bk], S (iused x))
                end).
    assert (HR : exists t' lx h', res = (t', KRef k :: map KRef lx, (if match isplit x with None => false | Some _ => true end then S (iused x) else iused x)) /\
       wf (order s) h' 1 t' /\ ents t' = sins k r (ents t) /\ keys t' = map fst (sins k r (ents t)) /\
       link_ins (links t) (links t') (bfresh s) /\
       nodes t' = nodes t + (if match isplit x with None => false | Some _ => true end then S (iused x) else iused x) /\
       (forall j, cnt j (seps t') + cnt j l2 = cnt j (seps t) + cnt j lx) /\
       (forall j, In j lx \/ In j l2 -> In j (keys t'))).
    { unfold res, parts in *. destruct (isplit x) as [[bk rt]|] eqn:Esp.
      - rewrite !flat_map_pair in *. cbn [map] in *.
        exists (Node [bk] [il x; rt]), (l1 ++ [bk]), (S h). rewrite Elog, map_app. cbn [app map].
        cbn [ents keys links nodes seps map]. rewrite !flat_map_pair. rewrite ?list_sum_cons, ?list_sum_nil in *.
        assert (Hlne : keys (il x) <> []).
        { eapply (keys_ne _ h Ho); [apply Pwf; left; auto|left; apply minn_pos; auto]. }
        repeat split; auto.
        + constructor; auto; cbn [length]; try lia.
          unfold seps_of. cbn. congruence.
        + lia.
        + intros j. specialize (Hcnt j). rewrite !cnt_app in *. cbn [cnt]. lia.
        + intros j Hj. rewrite in_app_iff in Hj. destruct Hj as [[Hj|[<-|[]]]|Hj]; auto.
          apply in_app_iff. left. rewrite Ps. apply maxk_in; auto.
      - cbn [flat_map map] in *. rewrite !app_nil_r in *. rewrite ?list_sum_cons, ?list_sum_nil in *.
        exists (il x), l1, h. rewrite Elog. repeat split; auto; try lia. apply Pwf. left; auto. }
    destruct HR as (t' & lx & h' & Eres & W' & Ee & Ek & El & En & Hc & Hki). rewrite Eres.
    rewrite Nat.eqb_refl. cbn [negb].
    set (used := if match isplit x with None => false | Some _ => true end then S (iused x) else iused x) in *.
    (* replay of the key log *)
    rewrite Elate. cbn [app kreplay kstep fst snd]. rewrite kset_eq, seq_refl. cbn [obind fst snd].
    set (f1 := fun j => cnt j (keys t') + cnt j (seps t)).
    assert (Hcntk : forall j, cnt j (keys t') = cnt j (keys t) + if seq j k then 1 else 0).
    { intros j. rewrite Ek, <- (ents_keys _ _ _ _ W). clear. induction (ents t) as [|e l IH]; cbn; [lia|].
      destruct (sgt k (fst e)); cbn; [rewrite IH|]; lia. }
    edestruct (kreplay_keep (map KRef lx ++ map KUnref l2) f1 (fun j => cnt j (keys t') + cnt j (seps t'))) as (ko' & Erep & Hko').
    { eapply srep_app.
      - apply srep_refs. intros j Hj. unfold f1. specialize (Hki j (or_introl Hj)). apply cnt_in in Hki. lia.
      - apply srep_unrefs. intros j. unfold f1. specialize (Hc j). lia. }
    { intros j. unfold f1. intros Hj. destruct (Nat.eq_dec (cnt j (keys t')) 0) as [E0|]; [|lia]. exfalso.
      assert (X1 : In j (seps t)) by (apply cnt_in; lia). eapply (seps_in _ _ Ho) in X1; eauto. apply cnt_in in X1.
      rewrite Hcntk in E0. lia. }
    { instantiate (1 := kset (kset (kobj s) k (Some 0%N)) k (Some (0 + 1)%N)). intros j. rewrite !kset_eq. rewrite (seq_sym k j). unfold f1. rewrite Hcntk.
      destruct (seq_spec j k) as [->|Hne].
      - assert (Z1 : cnt k (keys t) = 0 /\ cnt k (seps t) = 0) by (unfold tot in Hz; cbn in Hz; lia). destruct Z1 as [-> ->]. reflexivity.
      - rewrite Nat.add_0_r. rewrite Hk. unfold tot. reflexivity. }
    rewrite Erep. cbn [obind fst snd]. unfold ref_record. rewrite Hr. cbn [obind].
    eexists; exists t'. split; [reflexivity|]. cbn [root order meta dsize nent recs kobj bfresh].
    split; [reflexivity|]. split; [exact Ee|]. split; [constructor; cbn [root order kobj bfresh]; auto|split; [|repeat split; auto]].
    + split; [eauto|]. split; [rewrite Ek; auto|]. eapply chain_ins; eauto.
    + unfold minv. cbn [meta root order rnodes rkeys]. rewrite M. rewrite !add64_w. f_equal.
      rewrite Ek, name_bytes_sins, (ents_keys _ _ _ _ W), En. lia.
  - cbn [kreplay kstep fst snd]. rewrite kset_eq, seq_refl. cbn [obind fst snd].
    unfold ref_record. rewrite Hr. cbn [obind].
    eexists; eexists. split; [reflexivity|]. cbn [root order meta dsize nent recs kobj bfresh].
    split; [reflexivity|]. split; [reflexivity|]. split; [constructor; cbn [root order kobj bfresh]; auto|split; [|repeat split; auto]].
    + split; [exists 0; constructor; cbn [length]; lia|]. split; [repeat constructor|].
      repeat split; cbn; auto; [repeat constructor; auto|]. intros a [<-|[]]. lia.
    + intros j. rewrite !kset_eq, (seq_sym k j). unfold tot. cbn. destruct (seq_spec j k) as [->|].
      * reflexivity.
      * rewrite Hk. reflexivity.
    + unfold minv. cbn [meta root order rnodes rkeys nodes keys]. rewrite M. rewrite !add64_w. f_equal.
      cbn [rnodes rkeys]. change (name_bytes [k]) with (key_size k + 0)%N. change (name_bytes []) with 0%N. lia.
Qed.

Lemma remove_ok s k r X : tinv s -> minv s X -> In (k, r) (rents (root s)) ->
  (forall k', In (k', r) (rents (root s)) -> k' = k \/ slt k k') ->
  exists s1, remove s k r = unref_record s1 r /\ rents (root s1) = sdel k (rents (root s)) /\ tinv s1 /\ minv s1 X /\
    order s1 = order s /\ dsize s1 = dsize s /\ nent s1 = nent s /\ bfresh s1 = bfresh s /\ recs s1 = recs s.
Proof.
  intros T M Hin Hmin. pose proof T as T0. destruct T as [Ho Ht Hk]. unfold remove. unfold minv in M.
  destruct (root s) as [t|] eqn:Er; [|destruct Hin]. cbn [rents rkeys rnodes] in *. destruct Ht as ([h W] & Hs & Hch).
  destruct (del_ok (order s) k r Ho h 1 false t W (le_n 1) ltac:(discriminate) Hs Hin Hmin) as (x & Ex & P).
  rewrite Ex. cbn [obind].
  assert (Wd : wf (order s) h 0 (dt x)).
  { eapply wf_weaken; [apply (dp_wf P)|lia]. }
  assert (Hkd : keys (dt x) = filter (nk k) (keys t)).
  { rewrite <- (ents_keys _ _ _ _ Wd), <- (ents_keys _ _ _ _ W), (dp_ents P). apply sdel_map. }
  assert (Hchd : chain (bfresh s) (links (dt x))) by (eapply chain_del; [exact Hch|apply (dp_links P)]).
  assert (Hssd : SS (keys (dt x))) by (rewrite Hkd; apply SS_filter; auto).
  (* the new root *)
  assert (HR : exists ot n, (if dshrunk x then adjust_root (dt x) else Ok (Some (dt x), 0)) = Ok (ot, n) /\
     rents ot = ents (dt x) /\ rkeys ot = keys (dt x) /\ (forall j, cnt j (rseps ot) = cnt j (seps (dt x))) /\
     rnodes ot + n = nodes (dt x) /\
     match ot with None => True | Some u => (exists h', wf (order s) h' 1 u) /\ SS (keys u) /\ chain (bfresh s) (links u) end).
  { pose proof (dp_wf P) as Wx. destruct (dshrunk x).
    - unfold adjust_root. destruct (Nat.ltb_spec 0 (num_keys (dt x))) as [Hgt|Hle].
      + exists (Some (dt x)), 0. do 5 (split; [first [reflexivity|cbn; lia]|]). split; [|split; auto]. exists h. eapply wf_strengthen; eauto.
      + clear P Ex Wx. destruct (dt x) as [a nx ks rs|ks cs]; inversion Wd as [? ? ? ? ? Hlen Hb|? ? ? ? Hlen Hb Hc Hks]; clear Wd; subst; cbn [num_keys] in Hle.
        * destruct ks; [|cbn in Hle; lia]. exists None, 1. repeat split; auto.
        * destruct cs as [|c cs]; [discriminate|]. destruct cs; [|cbn in *; lia].
          exists (Some c), 1. cbn [get nth_error obind]. cbn [rents rkeys rseps rnodes ents keys seps nodes flat_map map links].
          cbn [keys links flat_map] in Hssd, Hchd. rewrite !app_nil_r in *. repeat split; auto.
          -- rewrite list_sum_cons, list_sum_nil. lia.
          -- eexists. eapply wf_weaken; [apply Hc; left; auto|apply minn_pos; auto].
          -- apply Hchd.
          -- apply Hchd.
          -- apply Hchd.
    - exists (Some (dt x)), 0. do 5 (split; [first [reflexivity|cbn; lia]|]). split; [eauto|split; auto]. }
  destruct HR as (ot & n & Ead & Re & Rk & Rs & Rn & Rt). rewrite Ead. cbn [obind fst snd].
  destruct (dp_log P) as (rest & f0 & Efix & Hrest & Hsrep).
  assert (Hkin : In k (keys t)).
  { rewrite <- (ents_keys _ _ _ _ W). apply in_map_iff. exists (k, r). auto. }
  pose proof (SS_NoDup _ Hs) as Hnd.
  assert (Hck : forall j, cnt j (keys t) = cnt j (keys (dt x)) + if seq j k then 1 else 0).
  { intros j. rewrite Hkd. clear -Hnd Hkin. apply in_split in Hkin as (a & b & E). rewrite E in *. apply NoDup_remove_2 in Hnd.
    rewrite filter_app. cbn [filter]. unfold nk at 2. rewrite seq_refl. cbn [negb].
    rewrite !filter_nk_notin by (rewrite in_app_iff in Hnd; tauto). rewrite !cnt_app. cbn [cnt]. lia. }
  assert (Hkn : ~ In k (keys (dt x))).
  { rewrite Hkd. intros X0. apply filter_In in X0 as [_ X0]. unfold nk in X0. rewrite seq_refl in X0. discriminate. }
  assert (Hall : srep (dfix x ++ dlog x) (fun j => cnt j (keys t) + cnt j (seps t)) (fun j => cnt j (keys (dt x)) + cnt j (seps (dt x)))).
  { apply cnt_in in Hkin. rewrite Efix. cbn [app srep]. split; [lia|].
    destruct Hrest as [[-> Hf]|(sx & -> & Hsx & Hpn & Hf)]; cbn [app srep].
    - eapply srep_ext; [exact Hsrep| |]; intros j; cbn beta; auto. unfold fsub. rewrite Hck, Hf. lia.
    - assert (Hne : seq k sx = false) by (apply seq_false; intros ->; auto).
      pose proof (Hf k) as Hfk. rewrite Hne, seq_refl in Hfk.
      split; [unfold fsub; rewrite seq_refl, Hck, seq_refl; lia|]. split.
      + apply cnt_in in Hsx. unfold fsub. rewrite (seq_sym sx k), Hne, Hck. lia.
      + eapply srep_ext; [exact Hsrep| |]; intros j; cbn beta; auto. unfold fsub, fadd. rewrite Hck. specialize (Hf j).
        destruct (seq_spec j k) as [Ej|]; [rewrite Ej, Hne in *|]; lia. }
  assert (Hsepd : forall j, In j (seps (dt x)) -> In j (keys (dt x))) by (intros j; eapply seps_in; eauto).
  destruct (kreplay_drop k _ _ _ (kobj s) (meta s) Hall) as (ko' & Erep & Hko').
  - cbn beta. apply cnt_in in Hkin. lia.
  - cbn beta. rewrite (cnt_zero k (keys (dt x))), (cnt_zero k (seps (dt x))); auto.
  - intros j Hj Hp. cbn beta in *.
    assert (X1 : In j (keys t)).
    { destruct (Nat.eq_dec (cnt j (keys t)) 0); [|apply cnt_in; lia]. eapply (seps_in _ _ Ho); eauto. apply cnt_in. lia. }
    apply cnt_in in X1. rewrite Hck in X1. destruct (seq_spec j k); [congruence|]. lia.
  - intros j. rewrite Hk. reflexivity.
  - rewrite Erep. cbn [obind fst snd]. eexists. split; [reflexivity|]. cbn [root order meta dsize nent recs kobj bfresh].
    split; [rewrite Re; apply (dp_ents P)|]. split; [constructor; cbn [root order kobj bfresh]; auto|split; [|repeat split; auto]].
    + intros j. rewrite Hko'. unfold tot. rewrite Rk, Rs. reflexivity.
    + unfold minv. cbn [meta root order]. rewrite M. pose proof (dp_nodes P) as Hn.
      rewrite (name_bytes_del k (keys t)) by auto. rewrite <- Hkd, Rk.
      replace (X + N.of_nat (nodes t) * node_size (order s) + (key_size k + name_bytes (keys (dt x))))%N with
        ((X + N.of_nat (rnodes ot) * node_size (order s) + name_bytes (keys (dt x))) +
         N.of_nat (dfreed x + n) * node_size (order s) + key_size k)%N by lia.
      rewrite sub64_w, sub64_w. reflexivity.
Qed.

(* set_ptr *)
Lemma set_ptr_ok o al r : 4 <= o -> forall h m t, wf o h m t -> 1 <= m -> SS (keys t) -> In al (keys t) ->
  exists t', set_ptr t al r = Ok t' /\ wf o h m t' /\ keys t' = keys t /\ links t' = links t /\ seps t' = seps t /\ nodes t' = nodes t /\
    ents t' = map (fun e => if seq al (fst e) then (al, r) else e) (ents t).
Proof.
  intros Ho. induction h as [|h IH]; intros m t W Hm Hs Hin; inv_wf W.
  - cbn [keys] in *. cbn [set_ptr]. apply in_split in Hin as (K1 & K2 & ->).
    assert (Fa : find_in (seq al) (K1 ++ al :: K2) = length K1).
    { apply SS_app in Hs as (_ & _ & Hs). apply find_in_mid; [|apply seq_refl]. intros y Hy. apply seq_false. intros ->.
      exact (slt_irrefl _ (Hs _ _ Hy (or_introl eq_refl))). }
    rewrite Fa. rewrite app_length in *. cbn [length] in *.
    destruct (Nat.ltb_spec (length K1) (length rs)); [|lia]. eexists. split; [reflexivity|].
    repeat split; auto.
    + constructor; rewrite ?list_set_length, ?app_length; cbn [length]; lia.
    + cbn [ents]. assert (Hr : exists R1 y R2, rs = R1 ++ y :: R2 /\ length R1 = length K1).
      { destruct (nth_error rs (length K1)) as [y|] eqn:En; [|apply nth_error_None in En; lia].
        apply nth_error_split in En as (R1 & R2 & -> & E). eauto. }
      destruct Hr as (R1 & y & R2 & -> & E1). rewrite <- E1, list_set_mid.
      rewrite !combine_app_eq by auto. rewrite map_app. cbn [combine map fst]. rewrite seq_refl.
      apply SS_app in Hs as (_ & Hs & HsX). apply SS_cons in Hs as [_ Hs].
      assert (Hid : forall (L : list entry), ~ In al (map fst L) -> map (fun e => if seq al (fst e) then (al, r) else e) L = L).
      { clear. intros L HL. induction L as [|e L IHL]; cbn in *; auto. destruct (seq_spec al (fst e)) as [->|]; [tauto|]. f_equal; auto. }
      rewrite app_length in Hlen. cbn [length] in Hlen.
      rewrite !Hid; auto; rewrite combine_fst by lia; intros X.
      * exact (slt_irrefl _ (Hs _ X)).
      * exact (slt_irrefl _ (HsX _ _ X (or_introl eq_refl))).
  - assert (Hkne : forall c, In c cs -> keys c <> []).
    { intros c Hi. eapply (keys_ne o h Ho (minn o h)); auto. left. apply minn_pos; auto. }
    destruct (descend al cs) as (A & c & B & -> & HA & H5 & H6 & H7); auto.
    { destruct cs; discriminate. }
    assert (Hinc : In c (A ++ c :: B)) by (apply in_app_iff; right; left; auto).
    cbn [keys] in *. rewrite flat_map_app in Hs, Hin. cbn [flat_map] in Hs, Hin.
    apply SS_app in Hs as (_ & Hs & _). apply SS_app in Hs as (Hs & _ & _).
    assert (HkA : ~ In al (flat_map keys A)) by (intros X; exact (slt_irrefl _ (H5 _ X))).
    assert (HkB : ~ In al (flat_map keys B)) by (intros X; exact (slt_irrefl _ (H7 _ X))).
    rewrite !in_app_iff in Hin. assert (Hina : In al (keys c)) by tauto.
    destruct (IH (minn o h) c (Hc c Hinc) (minn_pos o h Ho) Hs Hina) as (c' & E & W' & Ek & El & Es & En & Ee).
    rewrite set_ptr_node, <- HA, get_mid. cbn [obind]. rewrite E. cbn [obind]. rewrite list_set_mid.
    eexists. split; [reflexivity|].
    assert (Hm' : maxk c' = maxk c) by (unfold maxk; rewrite Ek; reflexivity).
    repeat split.
    + constructor; auto.
      * rewrite app_length in *. cbn [length] in *. lia.
      * intros d Hd. apply in_app_iff in Hd as [Hd|[<-|Hd]]; auto; apply Hc, in_app_iff; auto. right; right; auto.
      * rewrite !seps_of_app, Hm'. reflexivity.
    + cbn [keys]. rewrite !flat_map_app. cbn [flat_map]. rewrite Ek. reflexivity.
    + cbn [links]. rewrite !flat_map_app. cbn [flat_map]. rewrite El. reflexivity.
    + cbn [seps]. rewrite !flat_map_app. cbn [flat_map]. rewrite Es. reflexivity.
    + cbn [nodes]. rewrite !list_sum_mid, En. reflexivity.
    + cbn [ents]. rewrite !flat_map_app. cbn [flat_map]. rewrite !map_app, Ee.
      assert (Hid : forall (L : list entry), ~ In al (map fst L) -> map (fun e => if seq al (fst e) then (al, r) else e) L = L).
      { clear. intros L HL. induction L as [|e L IHL]; cbn in *; auto. destruct (seq_spec al (fst e)) as [->|]; [tauto|]. f_equal; auto. }
      assert (Hfe : forall L, (forall b, In b L -> wf o h (minn o h) b) -> map fst (flat_map ents L) = flat_map keys L).
      { clear. intros L HL. induction L as [|b L IHL]; cbn; auto. rewrite map_app, (ents_keys o h (minn o h)) by (apply HL; left; auto).
        f_equal. apply IHL. intros; apply HL; right; auto. }
      rewrite (Hid (flat_map ents A)), (Hid (flat_map ents B)); auto.
      * rewrite Hfe; auto. intros b Hb'. apply Hc, in_app_iff. right; right; auto.
      * rewrite Hfe; auto. intros b Hb'. apply Hc, in_app_iff. auto.
Qed.
