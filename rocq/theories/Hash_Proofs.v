From Verif Require Import Base Hash_Model Hash_Spec.
From Coq Require Import Permutation.
Local Open Scope N_scope.
Ltac Zify.zify_post_hook ::= Z.div_mod_to_equations.

Lemma bytes_eqb_eq a b : bytes_eqb a b = true <-> a = b.
Proof.
  revert b; induction a as [|x a IH]; intros [|y b]; simpl; split; intros H; try congruence; auto.
  - apply andb_prop in H as [H1 H2]. apply Ascii.eqb_eq in H1. apply IH in H2. congruence.
  - injection H as -> ->. rewrite Ascii.eqb_refl. apply IH; auto.
Qed.
Lemma bytes_eqb_refl a : bytes_eqb a a = true.
Proof. apply bytes_eqb_eq; auto. Qed.
Lemma bytes_eqb_neq a b : bytes_eqb a b = false <-> a <> b.
Proof.
  destruct (bytes_eqb a b) eqn:E; split; intros H; try congruence.
  - apply bytes_eqb_eq in E. congruence.
  - intros ->. rewrite bytes_eqb_refl in E. congruence.
Qed.
Lemma bytes_eqb_spec a b : reflect (a = b) (bytes_eqb a b).
Proof. destruct (bytes_eqb a b) eqn:E; constructor; [apply bytes_eqb_eq|apply bytes_eqb_neq]; auto. Qed.

Lemma key_match_eq k n : key_match k n = bytes_eqb k (nkey n).
Proof.
  unfold key_match. destruct (Nat.eqb_spec (List.length (nkey n)) (List.length k)) as [E|E]; simpl; auto.
  symmetry. apply bytes_eqb_neq. intros ->. auto.
Qed.

(* --- creation --- *)
Lemma round_up_ok hint : hint <= 2 ^ 31 ->
  exists j, 4 <= j <= 31 /\ round_up 64 16 hint = Some (2 ^ j) /\ hint <= 2 ^ j.
Proof.
  intros H.
  assert (X : forall f j, 4 <= j <= 31 -> (N.to_nat (31 - j) < f)%nat ->
              exists i, 4 <= i <= 31 /\ round_up f (2 ^ j) hint = Some (2 ^ i) /\ hint <= 2 ^ i).
  { induction f as [|f IH]; intros j Hj Hf; [lia|].
    cbn [round_up]. destruct (N.ltb_spec (2 ^ j) hint) as [L|L].
    - assert (Hj' : j < 31).
      { destruct (N.eq_dec j 31) as [->|]; [lia|lia]. }
      replace (wrap32 (N.shiftl (2 ^ j) 1)) with (2 ^ (j + 1)).
      + apply IH; lia.
      + unfold wrap32. rewrite N.shiftl_mul_pow2, <- N.pow_add_r. symmetry. apply N.mod_small.
        apply N.pow_lt_mono_r; lia.
    - exists j. auto. }
  destruct (X 64%nat 4 ltac:(lia) ltac:(lia)) as (j & Hj & E & L). exists j. auto.
Qed.

Lemma round_up_stuck f : forall s hint, 2 ^ 31 < hint -> (s = 0 \/ exists j, j <= 31 /\ s = 2 ^ j) -> round_up f s hint = None.
Proof.
  induction f as [|f IH]; intros s hint Hh Hs; [reflexivity|].
  cbn [round_up]. destruct (N.ltb_spec s hint) as [L|L].
  - apply IH; auto. destruct Hs as [->|(j & Hj & ->)]; [left; reflexivity|].
    destruct (N.eq_dec j 31) as [->|Hn]; [left; reflexivity|].
    right. exists (j + 1). split; [lia|]. unfold wrap32. rewrite N.shiftl_mul_pow2, <- N.pow_add_r.
    apply N.mod_small, N.pow_lt_mono_r; lia.
  - exfalso. destruct Hs as [->|(j & Hj & ->)]; [lia|].
    assert (2 ^ j <= 2 ^ 31) by (apply N.pow_le_mono_r; lia). lia.
Qed.

(* --- invariant --- *)
Record inv (t : htable) : Prop := {
  inv_pow : exists j, 4 <= j <= 31 /\ num_slots t = 2 ^ j;
  inv_len : List.length (slots t) = N.to_nat (num_slots t);
  inv_slot : forall i n, In n (nth i (slots t) []) -> slot_of t (nkey n) = i;
  inv_nodup : NoDup (map nid (List.concat (slots t)));
  inv_fresh : forall n, In n (List.concat (slots t)) -> nid n < hfresh t;
  inv_cnt : num_nodes t = wrap32 (N.of_nat (List.length (List.concat (slots t)))) }.

Definition ent (n : hnode) : entry := (ndata n, ndata_len n).
Definition abs (t : htable) : mmap := fun k => map ent (List.filter (key_match k) (chain_at t k)).

Lemma slot_lt t k : inv t -> (slot_of t k < List.length (slots t))%nat.
Proof.
  intros I. rewrite (inv_len t I). unfold slot_of. destruct (inv_pow t I) as (j & Hj & ->).
  rewrite <- N.pred_sub. rewrite <- N.ones_equiv. rewrite N.land_ones.
  assert (2 ^ j <> 0) by (apply N.pow_nonzero; lia).
  pose proof (N.mod_lt (hash_fn k) (2 ^ j) H). lia.
Qed.

Lemma concat_split {A} (ll : list (list A)) i :
  (i < List.length ll)%nat ->
  exists a b, ll = a ++ nth i ll [] :: b /\ List.length a = i /\
    forall c, list_set ll i c = a ++ c :: b.
Proof.
  revert i; induction ll as [|h t IH]; intros i Hi; simpl in Hi; [lia|].
  destruct i as [|i].
  - exists [], t. simpl. auto.
  - destruct (IH i ltac:(lia)) as (a & b & E & L & S).
    exists (h :: a), b. simpl. rewrite <- E. split; [auto|]. split; [auto|].
    intros c. rewrite S. reflexivity.
Qed.

(* replacing the chain of a key *)
Lemma with_chain_inv t k c cnt fr :
  inv t ->
  (forall n, In n c -> slot_of t (nkey n) = slot_of t k) ->
  (forall pre post, NoDup (map nid (pre ++ chain_at t k ++ post)) ->
     (forall n, In n (pre ++ chain_at t k ++ post) -> nid n < hfresh t) ->
     NoDup (map nid (pre ++ c ++ post)) /\ (forall n, In n (pre ++ c ++ post) -> nid n < fr)) ->
  (forall m, wrap32 (N.of_nat (m + List.length (chain_at t k))) = num_nodes t ->
     cnt = wrap32 (N.of_nat (m + List.length c))) ->
  inv (with_chain t k c cnt fr) /\
  abs (with_chain t k c cnt fr) k = map ent (List.filter (key_match k) c) /\
  (forall k', k' <> k ->
     (slot_of t k' = slot_of t k -> List.filter (key_match k') c = List.filter (key_match k') (chain_at t k)) ->
     abs (with_chain t k c cnt fr) k' = abs t k').
Proof.
  intros I Hslot Hnd Hcnt.
  pose proof (slot_lt t k I) as Hlt.
  destruct (concat_split (slots t) (slot_of t k) Hlt) as (a & b & E & La & Hset).
  fold (chain_at t k) in E.
  assert (Hconc : List.concat (slots t) = List.concat a ++ chain_at t k ++ List.concat b).
  { rewrite E at 1. rewrite concat_app. reflexivity. }
  assert (Hnth : forall i, nth i (list_set (slots t) (slot_of t k) c) [] =
                 if (slot_of t k =? i)%nat then c else nth i (slots t) []).
  { intros i. pose proof (nth_error_list_set (slots t) (slot_of t k) i c) as X.
    destruct (Nat.eqb_spec (slot_of t k) i) as [Hi|Hne].
    - subst i. destruct (Nat.ltb_spec (slot_of t k) (List.length (slots t))); [|lia].
      apply nth_error_nth with (d := []) in X. exact X.
    - destruct (nth_error (slots t) i) eqn:Ei.
      + apply nth_error_nth with (d := []) in X. rewrite X. symmetry. apply nth_error_nth with (d := []) in Ei. auto.
      + rewrite !nth_overflow; auto; apply nth_error_None in Ei; [auto|rewrite list_set_length; auto]. }
  split; [|split].
  - constructor; cbn [num_slots slots num_nodes hfresh with_chain].
    + apply (inv_pow t I).
    + rewrite list_set_length. apply (inv_len t I).
    + intros i n Hin. rewrite Hnth in Hin.
      change (slot_of (with_chain t k c cnt fr) (nkey n)) with (slot_of t (nkey n)).
      destruct (Nat.eqb_spec (slot_of t k) i) as [<-|Hne]; [auto|apply (inv_slot t I); auto].
    + rewrite Hset, concat_app. cbn [List.concat].
      apply Hnd; rewrite <- Hconc; [apply (inv_nodup t I)|apply (inv_fresh t I)].
    + rewrite Hset, concat_app. cbn [List.concat].
      apply Hnd; rewrite <- Hconc; [apply (inv_nodup t I)|apply (inv_fresh t I)].
    + rewrite Hset, concat_app. cbn [List.concat].
      rewrite !app_length.
      replace (List.length (List.concat a) + (List.length c + List.length (List.concat b)))%nat
        with ((List.length (List.concat a) + List.length (List.concat b)) + List.length c)%nat by lia.
      apply Hcnt. rewrite (inv_cnt t I), Hconc, !app_length. f_equal. f_equal. lia.
  - unfold abs, chain_at. cbn [slots with_chain].
    change (slot_of (with_chain t k c cnt fr) k) with (slot_of t k).
    rewrite Hnth, Nat.eqb_refl. reflexivity.
  - intros k' Hk' Hf. unfold abs at 1, chain_at at 1. cbn [slots with_chain].
    change (slot_of (with_chain t k c cnt fr) k') with (slot_of t k').
    rewrite Hnth. destruct (Nat.eqb_spec (slot_of t k) (slot_of t k')) as [Heq|Hne].
    + rewrite Hf by auto. unfold abs, chain_at. rewrite Heq. reflexivity.
    + reflexivity.
Qed.

Lemma on_first_keep p f c :
  (forall n, exists n', f n = [n'] /\ nid n' = nid n /\ nkey n' = nkey n) ->
  map nid (on_first p f c) = map nid c /\ map nkey (on_first p f c) = map nkey c.
Proof.
  intros H. induction c as [|n r [IH1 IH2]]; [auto|].
  cbn [on_first]. destruct (p n).
  - destruct (H n) as (n' & -> & E1 & E2). simpl. rewrite E1, E2. auto.
  - simpl. rewrite IH1, IH2. auto.
Qed.

Lemma on_first_filter_other k k' f c :
  (forall n, Forall (fun n' => nkey n' = nkey n) (f n)) -> k' <> k ->
  List.filter (key_match k') (on_first (key_match k) f c) = List.filter (key_match k') c.
Proof.
  intros Hf Hk. induction c as [|n r IH]; [auto|].
  cbn [on_first]. destruct (key_match k n) eqn:E.
  - rewrite key_match_eq in E. apply bytes_eqb_eq in E.
    rewrite filter_app. cbn [List.filter].
    assert (Hn : key_match k' n = false) by (rewrite key_match_eq; apply bytes_eqb_neq; congruence).
    rewrite Hn. replace (List.filter (key_match k') (f n)) with (@nil hnode); [reflexivity|].
    specialize (Hf n). induction (f n) as [|m l IHl]; auto.
    inversion Hf; subst. cbn [List.filter]. rewrite key_match_eq in *.
    rewrite H1, Hn. auto.
  - cbn [List.filter]. rewrite IH. reflexivity.
Qed.

Lemma on_first_filter_same k f c :
  (forall n, Forall (fun n' => nkey n' = nkey n) (f n)) ->
  List.filter (key_match k) (on_first (key_match k) f c) =
  match List.filter (key_match k) c with [] => [] | n :: r => f n ++ r end.
Proof.
  intros Hf. induction c as [|n r IH]; [auto|].
  cbn [on_first List.filter]. destruct (key_match k n) eqn:E.
  - rewrite filter_app. f_equal. specialize (Hf n).
    induction (f n) as [|m l IHl]; auto. inversion Hf; subst.
    cbn [List.filter]. rewrite key_match_eq in *. rewrite H1, E. f_equal; auto.
  - cbn [List.filter]. rewrite E. exact IH.
Qed.

Lemma find_filter {A} (p : A -> bool) l : List.find p l = hd_error (List.filter p l).
Proof. induction l as [|h t IH]; simpl; auto. destruct (p h); auto. Qed.

Lemma find_split {A} (p : A -> bool) l x : List.find p l = Some x ->
  exists a b, l = a ++ x :: b /\ p x = true /\ forallb (fun y => negb (p y)) a = true.
Proof.
  induction l as [|h t IH]; simpl; intros H; [discriminate|].
  destruct (p h) eqn:E.
  - injection H as ->. exists [], t. auto.
  - destruct (IH H) as (a & b & -> & Hx & Ha). exists (h :: a), b. simpl. rewrite E. auto.
Qed.

Lemma on_first_split p f a x b :
  forallb (fun y => negb (p y)) a = true -> p x = true ->
  on_first p f (a ++ x :: b) = a ++ f x ++ b.
Proof.
  intros Ha Hx. induction a as [|h t IH]; cbn [app on_first].
  - rewrite Hx. reflexivity.
  - cbn [forallb] in Ha. apply andb_prop in Ha as [H1 H2]. apply negb_true_iff in H1. rewrite H1.
    rewrite IH; auto.
Qed.

Lemma hfind_abs t k : match hfind t k with Some n => Some (ent n) | None => None end = hd_error (abs t k).
Proof.
  unfold hfind, abs. rewrite find_filter. destruct (List.filter (key_match k) (chain_at t k)); reflexivity.
Qed.

Lemma chain_keys t k n : inv t -> In n (chain_at t k) -> slot_of t (nkey n) = slot_of t k.
Proof. intros I H. apply (inv_slot t I). exact H. Qed.

Lemma on_first_keys p f c :
  (forall n, Forall (fun n' => nkey n' = nkey n) (f n)) ->
  forall n, In n (on_first p f c) -> exists m, In m c /\ nkey m = nkey n.
Proof.
  intros Hf. induction c as [|h r IH]; intros n Hin; [destruct Hin|].
  cbn [on_first] in Hin. destruct (p h).
  - apply in_app_iff in Hin as [Hin|Hin].
    + specialize (Hf h). rewrite Forall_forall in Hf. exists h. split; [left; auto|]. symmetry; auto.
    + exists n. split; [right; auto|auto].
  - destruct Hin as [->|Hin]; [exists n; split; [left|]; auto|].
    destruct (IH n Hin) as (m & Hm & E). exists m. split; [right|]; auto.
Qed.

(* overwriting the first node of a key *)
Lemma overwrite_ok t k (g : hnode -> entry) :
  inv t ->
  hfind t k <> None ->
  let t' := with_chain t k
        (on_first (key_match k)
           (fun n => [{| nid := nid n; nkey := nkey n; ndata := fst (g n); ndata_len := snd (g n) |}]) (chain_at t k))
        (num_nodes t) (hfresh t) in
  inv t' /\
  abs t' k = match List.filter (key_match k) (chain_at t k) with [] => [] | n :: r => g n :: map ent r end /\
  forall k', k' <> k -> abs t' k' = abs t k'.
Proof.
  intros I Hf. set (f := fun n => [{| nid := nid n; nkey := nkey n; ndata := fst (g n); ndata_len := snd (g n) |}]).
  assert (Hk : forall n, Forall (fun n' => nkey n' = nkey n) (f n)) by (intros n; repeat constructor).
  assert (Hn : forall n, exists n', f n = [n'] /\ nid n' = nid n /\ nkey n' = nkey n)
    by (intros n; eexists; repeat split).
  pose proof (on_first_keep (key_match k) f (chain_at t k) Hn) as [Hids Hkeys].
  destruct (with_chain_inv t k (on_first (key_match k) f (chain_at t k)) (num_nodes t) (hfresh t) I) as (I' & A1 & A2).
  - intros n Hin. destruct (on_first_keys _ _ _ Hk n Hin) as (m & Hm & E). rewrite <- E. apply chain_keys; auto.
  - intros pre post Hnd Hfr. rewrite !map_app, Hids, <- !map_app. split; auto.
    intros n Hin.
    assert (Hin' : In (nid n) (map nid (pre ++ chain_at t k ++ post))).
    { rewrite !map_app, <- Hids, <- !map_app. apply in_map; auto. }
    apply in_map_iff in Hin' as (m & Em & Hm). rewrite <- Em. auto.
  - intros m Hm. rewrite <- Hm. f_equal. f_equal. f_equal.
    rewrite <- (map_length nid), <- Hids, map_length. reflexivity.
  - cbv zeta. split; [exact I'|]. split.
    + rewrite A1. rewrite on_first_filter_same by auto.
      destruct (List.filter (key_match k) (chain_at t k)) as [|n r]; [reflexivity|].
      unfold f. cbn [app map]. unfold ent at 1. cbn. destruct (g n); reflexivity.
    + intros k' Hk'. apply A2; auto. intros _. apply on_first_filter_other; auto.
Qed.

Lemma wrap32_plus m : wrap32 (wrap32 m + 1) = wrap32 (m + 1).
Proof. unfold wrap32. rewrite N.add_mod_idemp_l by (apply N.pow_nonzero; lia). reflexivity. Qed.
Lemma wrap32_minus m : wrap32 (wrap32 (m + 1) + (2 ^ 32 - 1)) = wrap32 m.
Proof.
  unfold wrap32. rewrite N.add_mod_idemp_l by (apply N.pow_nonzero; lia).
  replace (m + 1 + (2 ^ 32 - 1)) with (m + 1 * 2 ^ 32) by (change (2 ^ 32) with 4294967296; lia).
  apply N.mod_add. apply N.pow_nonzero; lia.
Qed.

Lemma nodup_insert {A} (f : A -> N) pre x post fresh :
  NoDup (map f (pre ++ post)) -> (forall n, In n (pre ++ post) -> f n < fresh) -> f x = fresh ->
  NoDup (map f (pre ++ x :: post)).
Proof.
  intros H1 H2 H3. rewrite map_app. cbn [map]. apply NoDup_Add with (a := f x) (l := map f (pre ++ post)).
  - rewrite map_app. apply Add_app.
  - split; auto. intros Hin. apply in_map_iff in Hin as (n & En & Hn). specialize (H2 n Hn). lia.
Qed.

(* inserting a node at the front or end of the chain *)
Lemma insert_ok t k d l (front : bool) :
  inv t ->
  let n := {| nid := hfresh t; nkey := k; ndata := d; ndata_len := l |} in
  let t' := with_chain t k (if front then n :: chain_at t k else chain_at t k ++ [n])
                       (wrap32 (num_nodes t + 1)) (hfresh t + 1) in
  inv t' /\
  abs t' k = (if front then (d, l) :: abs t k else abs t k ++ [(d, l)]) /\
  forall k', k' <> k -> abs t' k' = abs t k'.
Proof.
  intros I n t'.
  assert (Hm : key_match k n = true) by (rewrite key_match_eq; apply bytes_eqb_refl).
  destruct (with_chain_inv t k (if front then n :: chain_at t k else chain_at t k ++ [n])
              (wrap32 (num_nodes t + 1)) (hfresh t + 1) I) as (I' & A1 & A2).
  - intros m Hin. assert (H : m = n \/ In m (chain_at t k)).
    { destruct front; [destruct Hin; auto|]. apply in_app_iff in Hin as [|[|[]]]; auto. }
    destruct H as [->|H]; [reflexivity|apply chain_keys; auto].
  - intros pre post Hnd Hfr.
    assert (X : forall a b, chain_at t k = a ++ b ->
       NoDup (map nid (pre ++ (a ++ n :: b) ++ post)) /\
       forall m, In m (pre ++ (a ++ n :: b) ++ post) -> nid m < hfresh t + 1).
    { intros a b E. rewrite E in Hnd, Hfr. rewrite <- app_assoc in *. cbn [app] in *.
      rewrite app_assoc in *. split.
      - apply (nodup_insert nid _ _ _ (hfresh t)); auto.
      - intros m Hin. apply in_app_iff in Hin as [Hin|[<-|Hin]].
        + specialize (Hfr m ltac:(apply in_app_iff; auto)). lia.
        + cbn. lia.
        + specialize (Hfr m ltac:(apply in_app_iff; auto)). lia. }
    destruct front.
    + apply (X [] (chain_at t k)). reflexivity.
    + apply (X (chain_at t k) []). rewrite app_nil_r. reflexivity.
  - intros m Hm'. rewrite <- Hm'. rewrite wrap32_plus. f_equal.
    destruct front; [cbn [List.length]|rewrite app_length; cbn [List.length]]; lia.
  - split; [exact I'|]. split.
    + unfold t'. rewrite A1. destruct front.
      * cbn [List.filter]. rewrite Hm. reflexivity.
      * rewrite filter_app. cbn [List.filter]. rewrite Hm. unfold abs. rewrite map_app. reflexivity.
    + intros k' Hk'. apply A2; auto. intros _.
      assert (Hm' : key_match k' n = false) by (rewrite key_match_eq; apply bytes_eqb_neq; cbn; congruence).
      destruct front; [cbn [List.filter]; rewrite Hm'; reflexivity|].
      rewrite filter_app. cbn [List.filter]. rewrite Hm'. apply app_nil_r.
Qed.

Lemma nodup_remove {A} (f : A -> N) (pre : list A) x post : NoDup (map f (pre ++ x :: post)) -> NoDup (map f (pre ++ post)).
Proof. rewrite map_app. cbn [map]. intros H. apply NoDup_remove_1 in H. rewrite <- map_app in H. exact H. Qed.

(* deleting the first node satisfying p, a refinement of key_match k *)
Lemma del_ok t k (q : entry -> bool) :
  inv t ->
  let p := fun n => key_match k n && q (ent n) in
  List.find p (chain_at t k) <> None ->
  let t' := do_del t k p in
  inv t' /\ abs t' k = remove_first q (abs t k) /\ forall k', k' <> k -> abs t' k' = abs t k'.
Proof.
  intros I p Hfind t'.
  destruct (List.find p (chain_at t k)) as [x|] eqn:E; [clear Hfind|congruence].
  destruct (find_split p _ _ E) as (a & b & Ec & Hx & Ha).
  assert (Hof : on_first p (fun _ => []) (chain_at t k) = a ++ b).
  { rewrite Ec. rewrite on_first_split by auto. reflexivity. }
  assert (Hkx : key_match k x = true) by (unfold p in Hx; apply andb_prop in Hx; tauto).
  destruct (with_chain_inv t k (on_first p (fun _ => []) (chain_at t k))
              (wrap32 (num_nodes t + (2 ^ 32 - 1))) (hfresh t) I) as (I' & A1 & A2).
  - intros n Hin. rewrite Hof in Hin. apply chain_keys; auto. rewrite Ec.
    apply in_app_iff in Hin as [|]; apply in_app_iff; auto. right. right. auto.
  - intros pre post Hnd Hfr. rewrite Hof. rewrite Ec in Hnd, Hfr.
    rewrite <- app_assoc in *. cbn [app] in *. rewrite app_assoc in *. split.
    + apply nodup_remove in Hnd. exact Hnd.
    + intros n Hin. apply Hfr. apply in_app_iff in Hin as [|]; apply in_app_iff; auto. right. right. auto.
  - intros m Hm. rewrite <- Hm. rewrite Hof, Ec, !app_length. cbn [List.length].
    replace (N.of_nat (m + (List.length a + S (List.length b)))) with (N.of_nat (m + (List.length a + List.length b)) + 1) by lia.
    apply wrap32_minus.
  - split; [exact I'|]. split.
    + unfold t', do_del. rewrite A1. unfold abs. rewrite Hof, Ec. clear -Ha Hx Hkx.
      induction a as [|h r IH]; cbn [app List.filter].
      * rewrite Hkx. cbn [map remove_first]. unfold p in Hx. rewrite Hkx in Hx. cbn [andb] in Hx. rewrite Hx. reflexivity.
      * cbn [forallb] in Ha. apply andb_prop in Ha as [H1 H2]. apply negb_true_iff in H1. unfold p in H1.
        destruct (key_match k h) eqn:Eh.
        -- cbn [andb] in H1. cbn [map remove_first]. rewrite H1. f_equal. apply IH; auto.
        -- apply IH; auto.
    + intros k' Hk'. apply A2; auto. intros _. rewrite Hof, Ec, !filter_app. cbn [List.filter].
      assert (Hm' : key_match k' x = false).
      { rewrite key_match_eq in *. apply bytes_eqb_eq in Hkx. apply bytes_eqb_neq. congruence. }
      rewrite Hm'. reflexivity.
Qed.

Lemma remove_first_true l : remove_first (fun _ => true) l = tl l.
Proof. destruct l; reflexivity. Qed.

Lemma find_ext {A} (p q : A -> bool) l : (forall x, p x = q x) -> List.find p l = List.find q l.
Proof. intros H. induction l as [|h t IH]; simpl; auto. rewrite H, IH. reflexivity. Qed.
Lemma on_first_ext p q f c : (forall x, p x = q x) -> on_first p f c = on_first q f c.
Proof. intros H. induction c as [|h t IH]; simpl; auto. rewrite H, IH. reflexivity. Qed.

Definition mm_eq (m m' : mmap) : Prop := forall k, m k = m' k.

Lemma mm_set_other m k l k' : k' <> k -> mm_set m k l k' = m k'.
Proof. intros H. unfold mm_set. destruct (bytes_eqb_spec k k'); congruence. Qed.
Lemma mm_set_same m k l : mm_set m k l k = l.
Proof. unfold mm_set. rewrite bytes_eqb_refl. reflexivity. Qed.

Ltac by_key k' k := destruct (bytes_eqb_spec k k') as [<-|?]; [rewrite mm_set_same|rewrite mm_set_other by congruence].

Lemma hdel_ok t k : inv t ->
  inv (hash_del t k) /\ forall k', abs (hash_del t k) k' = mm_set (abs t) k (tl (abs t k)) k'.
Proof.
  intros I. unfold hash_del. destruct (hfind t k) as [n|] eqn:E.
  - destruct (del_ok t k (fun _ => true) I) as (I' & A1 & A2).
    + rewrite (find_ext _ (key_match k)) by (intros; apply andb_true_r). unfold hfind in E. congruence.
    + assert (Ed : do_del t k (fun n => key_match k n && true) = do_del t k (key_match k)).
      { unfold do_del. rewrite (on_first_ext _ (key_match k)) by (intros; apply andb_true_r). reflexivity. }
      rewrite <- Ed. split; [exact I'|]. intros k'. by_key k' k.
      * rewrite A1. apply remove_first_true.
      * apply A2; auto.
  - split; auto. intros k'. by_key k' k; auto.
    pose proof (hfind_abs t k) as H. rewrite E in H. destruct (abs t k); [reflexivity|discriminate].
Qed.

Lemma hstep_ok memeq t o : inv t ->
  inv (hstep memeq t o) /\ mm_eq (abs (hstep memeq t o)) (mm_step memeq (abs t) o).
Proof.
  intros I. destruct o as [k d l|k|k cb| |k d l|k d l]; cbn [hstep mm_step].
  - (* add *)
    unfold hash_add. pose proof (hfind_abs t k) as Hf.
    destruct (hfind t k) as [n|] eqn:E.
    + destruct (overwrite_ok t k (fun n => (d, ndata_len n)) I ltac:(congruence)) as (I' & A1 & A2).
      cbn [fst snd] in *. split; [exact I'|]. intros k'.
      unfold abs in Hf. destruct (List.filter (key_match k) (chain_at t k)) as [|m r] eqn:Ef; [discriminate|].
      assert (Habs : abs t k = ent m :: map ent r) by (unfold abs; rewrite Ef; reflexivity).
      rewrite Habs. unfold ent at 1. by_key k' k.
      * rewrite A1. reflexivity.
      * apply A2; auto.
    + destruct (insert_ok t k d l false I) as (I' & A1 & A2). unfold do_insert. split; [exact I'|].
      intros k'. destruct (abs t k) eqn:Ea; [|discriminate]. by_key k' k.
      * rewrite A1. reflexivity.
      * apply A2; auto.
  - apply hdel_ok; auto.
  - (* update *)
    unfold hash_update. pose proof (hfind_abs t k) as Hf.
    replace (match hfind t k with Some n => Some (ndata n, ndata_len n) | None => None end)
      with (hd_error (abs t k)) by (rewrite <- Hf; destruct (hfind t k); reflexivity).
    destruct (cb (hd_error (abs t k))) as [[| |] [d l]].
    + destruct (hfind t k) as [n|] eqn:E.
      * destruct (overwrite_ok t k (fun _ => (d, l)) I ltac:(congruence)) as (I' & A1 & A2).
        cbn [fst snd] in *. split; [exact I'|]. intros k'.
        destruct (List.filter (key_match k) (chain_at t k)) as [|m r] eqn:Ef.
        { unfold abs in Hf. rewrite Ef in Hf. discriminate. }
        assert (Habs : abs t k = ent m :: map ent r) by (unfold abs; rewrite Ef; reflexivity).
        rewrite Habs. by_key k' k; [rewrite A1; reflexivity|apply A2; auto].
      * destruct (insert_ok t k d l false I) as (I' & A1 & A2). unfold do_insert. split; [exact I'|].
        intros k'. destruct (abs t k) eqn:Ea; [|discriminate]. by_key k' k.
        -- rewrite A1. reflexivity.
        -- apply A2; auto.
    + apply hdel_ok; auto.
    + split; auto. intros k'; reflexivity.
  - (* wipe *)
    assert (Hc : List.concat (repeat (@nil hnode) (List.length (slots t))) = []).
    { induction (List.length (slots t)); auto. }
    assert (Hn : forall i, nth i (repeat (@nil hnode) (List.length (slots t))) [] = []).
    { intros i. generalize (List.length (slots t)). induction i; intros [|m]; simpl; auto. }
    split.
    + constructor; cbn [hash_wipe num_slots slots num_nodes hfresh]; try rewrite Hc.
      * apply (inv_pow t I).
      * rewrite repeat_length. apply (inv_len t I).
      * intros i n. rewrite Hn. intros [].
      * constructor.
      * intros n [].
      * reflexivity.
    + intros k'. unfold abs, chain_at. cbn [hash_wipe slots]. rewrite Hn. reflexivity.
  - (* add multiple *)
    destruct (insert_ok t k d l true I) as (I' & A1 & A2). split; [exact I'|].
    intros k'. by_key k' k; [exact A1|apply A2; auto].
  - (* del with data *)
    unfold hash_del_with_data.
    assert (Hext : forall n, data_match memeq k d l n = key_match k n && same_data memeq d l (ent n)).
    { intros n. unfold data_match, same_data, ent; cbn [fst snd]. rewrite <- !andb_assoc. reflexivity. }
    destruct (List.find (data_match memeq k d l) (chain_at t k)) as [n|] eqn:E.
    + destruct (del_ok t k (same_data memeq d l) I) as (I' & A1 & A2).
      * rewrite (find_ext _ (data_match memeq k d l)) by (intros; symmetry; apply Hext). congruence.
      * assert (Ed : do_del t k (fun n => key_match k n && same_data memeq d l (ent n)) = do_del t k (data_match memeq k d l)).
        { unfold do_del. rewrite (on_first_ext _ (data_match memeq k d l)) by (intros; symmetry; apply Hext). reflexivity. }
        rewrite <- Ed. split; [exact I'|]. intros k'. by_key k' k; [exact A1|apply A2; auto].
    + split; auto. intros k'. by_key k' k; auto.
      unfold abs. rewrite (find_ext _ _ _ Hext) in E. clear -E.
      induction (chain_at t k) as [|n r IH]; [reflexivity|].
      cbn [List.find] in E. cbn [List.filter].
      destruct (key_match k n); cbn [andb] in E.
      * cbn [map remove_first]. destruct (same_data memeq d l (ent n)); [discriminate|]. f_equal. apply IH; auto.
      * apply IH; auto.
Qed.

Lemma mm_step_ext memeq m m' o : mm_eq m m' -> mm_eq (mm_step memeq m o) (mm_step memeq m' o).
Proof.
  intros H. destruct o as [k d l|k|k cb| |k d l|k d l]; cbn [mm_step]; intros k'; try rewrite !(H k); auto;
    try (by_key k' k; [rewrite mm_set_same|rewrite mm_set_other by congruence]; auto; fail).
  - destruct (m' k) as [|[? ?] ?]; (by_key k' k; [rewrite mm_set_same|rewrite mm_set_other by congruence]; auto).
  - destruct (cb (hd_error (m' k))) as [[| |] e]; auto; (by_key k' k; [rewrite mm_set_same|rewrite mm_set_other by congruence]; auto).
Qed.

Lemma mm_fold_ext memeq ops : forall m m', mm_eq m m' -> mm_eq (fold_left (mm_step memeq) ops m) (fold_left (mm_step memeq) ops m').
Proof.
  induction ops as [|o r IH]; intros m m' H; [exact H|].
  cbn [fold_left]. apply IH, mm_step_ext, H.
Qed.

Lemma hrun_ok memeq ops : forall t, inv t ->
  inv (hrun memeq t ops) /\ mm_eq (abs (hrun memeq t ops)) (fold_left (mm_step memeq) ops (abs t)).
Proof.
  unfold hrun. induction ops as [|o r IH]; intros t I; [split; [auto|intros k; reflexivity]|].
  cbn [fold_left]. destruct (hstep_ok memeq t o I) as [I1 A1].
  destruct (IH _ I1) as [I2 A2]. split; auto.
  intros k. rewrite A2. apply mm_fold_ext; auto.
Qed.

Lemma create_ok hint : hint <= 2 ^ 31 -> exists t, hash_create hint = Some t /\ inv t /\ mm_eq (abs t) (fun _ => []).
Proof.
  intros H. destruct (round_up_ok hint H) as (j & Hj & E & _). unfold hash_create. rewrite E.
  eexists; split; [reflexivity|].
  assert (Hc : forall m, List.concat (repeat (@nil hnode) m) = []) by (induction m; auto).
  assert (Hn : forall m i, nth i (repeat (@nil hnode) m) [] = []).
  { intros m i. revert m. induction i; intros [|m]; simpl; auto. }
  split.
  - constructor; cbn [num_slots slots num_nodes hfresh]; try rewrite Hc.
    + exists j; auto.
    + rewrite repeat_length. reflexivity.
    + intros i n. rewrite Hn. intros [].
    + constructor.
    + intros n [].
    + reflexivity.
  - intros k. unfold abs, chain_at. cbn [slots]. rewrite Hn. reflexivity.
Qed.

(* --- walking --- *)
Lemma in_concat_split {A} (ll : list (list A)) : forall pre (x : A) post, List.concat ll = pre ++ x :: post ->
  exists s1 c1 c2 s2, ll = s1 ++ (c1 ++ x :: c2) :: s2 /\ pre = List.concat s1 ++ c1 /\ post = c2 ++ List.concat s2.
Proof.
  induction ll as [|c ll IH]; intros pre x post E; cbn [List.concat] in E.
  - destruct pre; discriminate.
  - revert c E. induction pre as [|y pre IHp]; intros c E.
    + destruct c as [|z c]; cbn [app] in E.
      * destruct (IH [] x post E) as (s1 & c1 & c2 & s2 & -> & Hp & Hq).
        exists ([] :: s1), c1, c2, s2. cbn [List.concat app]. auto.
      * injection E as E1 E2; subst. exists [], [], c, ll. auto.
    + destruct c as [|z c]; cbn [app] in E.
      * destruct (IH (y :: pre) x post E) as (s1 & c1 & c2 & s2 & -> & Hp & Hq).
        exists ([] :: s1), c1, c2, s2. cbn [List.concat app]. auto.
      * injection E as E1 E. subst z. destruct (IHp c E) as (s1 & c1 & c2 & s2 & Es & Hp & Hq).
        destruct s1 as [|h s1]; cbn [app] in Es; injection Es as -> ->.
        -- exists [], (y :: c1), c2, s2. cbn [List.concat app] in *. subst pre. auto.
        -- exists ((y :: h) :: s1), c1, c2, s2. cbn [List.concat app] in *. subst pre. auto.
Qed.

Lemma hd_heads {A} (ll : list (list A)) :
  hd_error (List.concat (map (fun c => match c with n :: _ => [n] | [] => [] end) ll)) = hd_error (List.concat ll).
Proof. induction ll as [|[|x c] ll IH]; cbn; auto. Qed.

Lemma succ_in_notin i c : ~ In i (map nid c) -> succ_in i c = None.
Proof.
  induction c as [|n r IH]; cbn; intros H; auto.
  destruct (N.eqb_spec (nid n) i); [exfalso; apply H; auto|]. apply IH. tauto.
Qed.
Lemma succ_in_app i c1 n c2 : nid n = i -> ~ In i (map nid c1) -> succ_in i (c1 ++ n :: c2) = hd_error c2.
Proof.
  intros Hn. induction c1 as [|m r IH]; cbn; intros H.
  - rewrite Hn, N.eqb_refl. reflexivity.
  - destruct (N.eqb_spec (nid m) i); [exfalso; apply H; auto|]. apply IH. tauto.
Qed.

Lemma succ_concat i s :
  ~ In i (map nid (List.concat s)) ->
  List.concat (map (fun c => match succ_in i c with Some m => [m] | None => [] end) s) = [].
Proof.
  induction s as [|c s IH]; cbn; intros H; auto.
  rewrite map_app, in_app_iff in H.
  rewrite succ_in_notin by tauto. apply IH. tauto.
Qed.

Lemma get_next_ok t pre n post :
  inv t -> List.concat (slots t) = pre ++ n :: post -> hash_get_next t n = hd_error post.
Proof.
  intros I E. pose proof (inv_nodup t I) as Hnd. rewrite E in Hnd.
  destruct (in_concat_split _ _ _ _ E) as (s1 & c1 & c2 & s2 & Es & -> & ->).
  assert (Hslot : slot_of t (nkey n) = List.length s1).
  { apply (inv_slot t I). rewrite Es, app_nth2, Nat.sub_diag by lia. cbn. apply in_app_iff. right. left. auto. }
  rewrite map_app in Hnd. cbn [map] in Hnd. apply NoDup_remove_2 in Hnd.
  rewrite in_app_iff, !map_app, !in_app_iff in Hnd.
  assert (Hnext : node_next t n = hd_error c2).
  { unfold node_next. rewrite Es, map_app, concat_app. cbn [map List.concat].
    rewrite succ_concat by tauto. rewrite succ_in_app by tauto.
    destruct c2 as [|m c2]; cbn [hd_error app]; [|reflexivity].
    rewrite succ_concat by tauto. reflexivity. }
  unfold hash_get_next. rewrite Hnext. destruct c2 as [|m c2]; cbn [hd_error app]; [|reflexivity].
  unfold next_slot. rewrite Hslot, Es.
  replace (List.skipn (List.length s1 + 1) (s1 ++ (c1 ++ [n]) :: s2)) with s2.
  - apply hd_heads.
  - rewrite skipn_app, skipn_all2 by lia.
    replace (List.length s1 + 1 - List.length s1)%nat with 1%nat by lia. reflexivity.
Qed.

Lemma walk_ok t : inv t -> forall fuel pre post, List.concat (slots t) = pre ++ post ->
  hash_walk fuel t (hd_error post) = firstn fuel post.
Proof.
  intros I. induction fuel as [|f IH]; intros pre post E; [reflexivity|].
  destruct post as [|n post]; [reflexivity|].
  cbn [hash_walk hd_error firstn]. f_equal. rewrite (get_next_ok t pre n post I E).
  apply (IH (pre ++ [n])). rewrite <- app_assoc. exact E.
Qed.

Lemma walk_all t fuel : inv t -> (List.length (hash_iter t) <= fuel)%nat ->
  hash_walk fuel t (hash_get_first t) = hash_iter t.
Proof.
  intros I H. unfold hash_get_first, next_slot. rewrite skipn_O, hd_heads.
  rewrite (walk_ok t I fuel [] (List.concat (slots t))) by reflexivity.
  apply firstn_all2. exact H.
Qed.

(* entries of a key seen by the iteration *)
Lemma iter_key t k : inv t ->
  map ent (List.filter (fun n => bytes_eqb k (nkey n)) (hash_iter t)) = abs t k.
Proof.
  intros I. unfold hash_iter, abs. f_equal.
  pose proof (slot_lt t k I) as Hlt.
  destruct (concat_split (slots t) (slot_of t k) Hlt) as (a & b & E & La & _).
  fold (chain_at t k) in E.
  assert (Hother : forall i c, nth_error (slots t) i = Some c -> i <> slot_of t k ->
                   List.filter (fun n => bytes_eqb k (nkey n)) c = []).
  { intros i c Hc Hi. apply nth_error_nth with (d := []) in Hc. subst c.
    assert (Hall : forall n, In n (nth i (slots t) []) -> bytes_eqb k (nkey n) = false).
    { intros n Hn. apply bytes_eqb_neq. intros ->. apply Hi. symmetry. apply (inv_slot t I). exact Hn. }
    induction (nth i (slots t) []) as [|n r IH]; auto. cbn [List.filter].
    rewrite Hall by (left; auto). apply IH. intros m Hm. apply Hall. right; auto. }
  assert (Hnil : forall s (off : nat), (forall i c, nth_error s i = Some c -> nth_error (slots t) (off + i) = Some c) ->
                 (forall i, (i < List.length s)%nat -> (off + i)%nat <> slot_of t k) ->
                 List.filter (fun n => bytes_eqb k (nkey n)) (List.concat s) = []).
  { induction s as [|c s IHs]; intros off H1 H2; [reflexivity|]. cbn [List.concat].
    rewrite filter_app. rewrite (Hother (off + 0)%nat c); [|apply H1; reflexivity|apply H2; cbn; lia].
    cbn [app]. apply (IHs (S off)).
    - intros i c' Hc'. replace (S off + i)%nat with (off + S i)%nat by lia. apply H1. exact Hc'.
    - intros i Hi. replace (S off + i)%nat with (off + S i)%nat by lia. apply H2. cbn. lia. }
  rewrite E at 1. rewrite concat_app. cbn [List.concat]. rewrite !filter_app.
  rewrite (Hnil a 0%nat).
  - rewrite (Hnil b (S (slot_of t k))).
    + cbn [app]. rewrite app_nil_r. apply filter_ext. intros n. symmetry. apply key_match_eq.
    + intros i c Hc. rewrite E. rewrite nth_error_app2 by lia.
      replace (S (slot_of t k) + i - List.length a)%nat with (S i) by lia. exact Hc.
    + intros i Hi. lia.
  - intros i c Hc. cbn [Nat.add]. rewrite E. rewrite nth_error_app1; auto.
    apply nth_error_Some. congruence.
  - intros i Hi. lia.
Qed.

(* --- statements used by the properties --- *)
Lemma hash_refines_lemma memeq hint ops :
  hint <= 2 ^ 31 ->
  exists t0, hash_create hint = Some t0 /\
  let t := hrun memeq t0 ops in
  let m := mm_run memeq ops in
  (forall k, hash_lookup t k = match m k with [] => (0, 0) | e :: _ => e end) /\
  (forall s, hash_lookup_with_count t s =
     match m (s ++ [NUL]) with [] => (0, 0, 0) | e :: r => (e, N.of_nat (List.length (e :: r))) end) /\
  (forall k d l, hash_lookup_with_data memeq t k d l =
     match List.find (same_data memeq d l) (m k) with Some e => fst e | None => 0 end).
Proof.
  intros Hh. destruct (create_ok hint Hh) as (t0 & E & I0 & A0).
  exists t0. split; [exact E|]. intros t m.
  destruct (hrun_ok memeq ops t0 I0) as [I A]. fold t in I, A.
  assert (Hm : forall k, abs t k = m k).
  { intros k. rewrite A. unfold m, mm_run. apply mm_fold_ext. exact A0. }
  split; [|split].
  - intros k. unfold hash_lookup. pose proof (hfind_abs t k) as Hf. rewrite Hm in Hf.
    destruct (hfind t k), (m k); cbn in Hf; try discriminate; auto. injection Hf as <-. reflexivity.
  - intros s. unfold hash_lookup_with_count. rewrite <- Hm. unfold abs.
    destruct (List.filter (key_match (s ++ [NUL])) (chain_at t (s ++ [NUL]))) as [|n r]; [reflexivity|].
    cbn [map]. unfold ent at 1. cbn [List.length]. rewrite map_length. reflexivity.
  - intros k d l. unfold hash_lookup_with_data. rewrite <- Hm. unfold abs.
    induction (chain_at t k) as [|n r IH]; [reflexivity|].
    cbn [List.find List.filter]. unfold data_match at 1.
    destruct (key_match k n); cbn [andb].
    + cbn [map List.find]. change (same_data memeq d l (ent n)) with
        (negb (ndata n =? 0) && (ndata_len n =? l) && memeq d (ndata n) l).
      destruct (negb (ndata n =? 0) && (ndata_len n =? l) && memeq d (ndata n) l); [reflexivity|exact IH].
    + exact IH.
Qed.

Lemma hash_walk_lemma memeq hint ops fuel :
  hint <= 2 ^ 31 ->
  exists t0, hash_create hint = Some t0 /\
  let t := hrun memeq t0 ops in
  let m := mm_run memeq ops in
  (List.length (hash_iter t) <= fuel)%nat ->
  hash_walk fuel t (hash_get_first t) = hash_iter t /\
  hash_get_entry_count t = N.of_nat (List.length (hash_iter t)) mod 2 ^ 32 /\
  forall k, map (fun n => (ndata n, ndata_len n)) (List.filter (fun n => bytes_eqb k (nkey n)) (hash_iter t)) = m k.
Proof.
  intros Hh. destruct (create_ok hint Hh) as (t0 & E & I0 & A0).
  exists t0. split; [exact E|]. intros t m Hfuel.
  destruct (hrun_ok memeq ops t0 I0) as [I A]. fold t in I, A.
  split; [apply walk_all; auto|]. split; [apply (inv_cnt t I)|].
  intros k. transitivity (abs t k); [exact (iter_key t k I)|]. rewrite A. unfold m, mm_run. apply mm_fold_ext. exact A0.
Qed.

(* --- plain map --- *)
Lemma um_ok memeq ops : forall m,
  forallb unique_op ops = true -> (forall k, (List.length (m k) <= 1)%nat) ->
  forall k, (List.length (fold_left (mm_step memeq) ops m k) <= 1)%nat.
Proof.
  induction ops as [|o r IH]; intros m Hu Hm k; [apply Hm|].
  cbn [forallb fold_left] in *. apply andb_prop in Hu as [Ho Hu]. apply IH; auto.
  intros k'. destruct o as [k0 d l|k0|k0 cb| |k0 d l|k0 d l]; try discriminate Ho; cbn [mm_step].
  - pose proof (Hm k0) as H0. destruct (m k0) as [|[d0 l0] r0] eqn:Em; (by_key k' k0; [cbn in *; lia|apply Hm]).
  - by_key k' k0; [|apply Hm]. pose proof (Hm k0). destruct (m k0); cbn in *; lia.
  - pose proof (Hm k0) as H0.
    destruct (cb (hd_error (m k0))) as [[| |] e]; auto; (by_key k' k0; [|apply Hm]); destruct (m k0); cbn in *; lia.
  - cbn. lia.
Qed.

Definition im_eq (m : mmap) (im : bytes -> option entry) : Prop := forall k, m k = match im k with Some e => [e] | None => [] end.

Lemma hash_hang_lemma hint : 2 ^ 31 < hint -> forall fuel, round_up fuel 16 hint = None.
Proof. intros H fuel. apply round_up_stuck; auto. right. exists 4. split; [lia|reflexivity]. Qed.

Lemma im_run_ok memeq ops : forall m im,
  forallb unique_op ops = true -> adds_keep_len im ops = true -> im_eq m im ->
  im_eq (fold_left (mm_step memeq) ops m) (fold_left im_step ops im).
Proof.
  induction ops as [|o r IH]; intros m im Hu Hl He; [exact He|].
  cbn [forallb fold_left adds_keep_len] in *. apply andb_prop in Hu as [Ho Hu]. apply andb_prop in Hl as [Hl0 Hl].
  apply IH; auto. intros k'. unfold im_set.
  destruct o as [k0 d l|k0|k0 cb| |k0 d l|k0 d l]; try discriminate Ho; cbn [mm_step im_step].
  - pose proof (He k0) as H0. destruct (im k0) as [[d0 l0]|] eqn:Ei; rewrite H0.
    + apply N.eqb_eq in Hl0. subst l0. unfold mm_set, im_set. destruct (bytes_eqb k0 k'); [reflexivity|apply He].
    + unfold mm_set, im_set. destruct (bytes_eqb k0 k'); [reflexivity|apply He].
  - unfold mm_set, im_set. rewrite He. destruct (bytes_eqb k0 k'); [destruct (im k0); reflexivity|apply He].
  - rewrite (He k0).
    replace (hd_error match im k0 with Some e => [e] | None => [] end) with (im k0) by (destruct (im k0); reflexivity).
    destruct (cb (im k0)) as [[| |] e]; unfold mm_set, im_set; try (destruct (bytes_eqb k0 k')); try apply He;
      destruct (im k0); reflexivity.
  - reflexivity.
Qed.

Lemma hash_map_lemma memeq hint ops :
  hint <= 2 ^ 31 -> forallb unique_op ops = true -> adds_keep_len (fun _ => None) ops = true ->
  exists t0, hash_create hint = Some t0 /\
  forall k, hash_lookup (hrun memeq t0 ops) k = match im_run ops k with Some e => e | None => (0, 0) end.
Proof.
  intros Hh Hu Hl. destruct (hash_refines_lemma memeq hint ops Hh) as (t0 & E & H1 & _).
  exists t0. split; [exact E|]. intros k. rewrite H1.
  pose proof (im_run_ok memeq ops (fun _ => []) (fun _ => None) Hu Hl (fun _ => eq_refl) k) as X.
  unfold mm_run, im_run. rewrite X. destruct (fold_left im_step ops (fun _ => None) k); reflexivity.
Qed.

(* pointers alone, when callbacks do not look at the old length *)
Definition len_blind (o : hop) : Prop :=
  match o with HUpdate _ cb => forall d l l', cb (Some (d, l)) = cb (Some (d, l')) | _ => True end.

Definition pm_eq (m : mmap) (im : imap) : Prop :=
  forall k, match m k, im k with [], None => True | [e], Some e' => fst e = fst e' | _, _ => False end.

Lemma pm_run_ok memeq ops : forall m im,
  forallb unique_op ops = true -> Forall len_blind ops -> pm_eq m im ->
  pm_eq (fold_left (mm_step memeq) ops m) (fold_left im_step ops im).
Proof.
  induction ops as [|o r IH]; intros m im Hu Hb He; [exact He|].
  cbn [forallb fold_left] in *. apply andb_prop in Hu as [Ho Hu]. inversion Hb as [|? ? Hb0 Hb1]; subst.
  apply IH; auto. intros k'. pose proof (He k') as Hk'.
  destruct o as [k0 d l|k0|k0 cb| |k0 d l|k0 d l]; try discriminate Ho; cbn [mm_step im_step].
  - pose proof (He k0) as H0. unfold mm_set, im_set.
    destruct (m k0) as [|[d0 l0] [|? ?]], (im k0) as [[dd1 ll1]|]; try contradiction H0;
      (destruct (bytes_eqb k0 k'); [reflexivity|exact Hk']).
  - pose proof (He k0) as H0. unfold mm_set, im_set.
    destruct (bytes_eqb k0 k'); [|exact Hk'].
    destruct (m k0) as [|[d0 l0] [|? ?]], (im k0) as [[dd1 ll1]|]; try contradiction H0; exact I.
  - pose proof (He k0) as H0.
    assert (Hcb : cb (hd_error (m k0)) = cb (im k0)).
    { destruct (m k0) as [|[d0 l0] [|? ?]], (im k0) as [[dd1 ll1]|]; try contradiction H0; auto.
      cbn in *. subst dd1. apply Hb0. }
    rewrite Hcb. destruct (cb (im k0)) as [[| |] e]; unfold mm_set, im_set;
      try (destruct (bytes_eqb k0 k')); try exact Hk';
      destruct (m k0) as [|[d0 l0] [|? ?]], (im k0) as [[dd1 ll1]|]; try contradiction H0; cbn; auto.
  - exact I.
Qed.

Lemma hash_map_ptr_lemma memeq hint ops :
  hint <= 2 ^ 31 -> forallb unique_op ops = true -> Forall len_blind ops ->
  exists t0, hash_create hint = Some t0 /\
  forall k, fst (hash_lookup (hrun memeq t0 ops) k) = match im_run ops k with Some e => fst e | None => 0 end.
Proof.
  intros Hh Hu Hl. destruct (hash_refines_lemma memeq hint ops Hh) as (t0 & E & H1 & _).
  exists t0. split; [exact E|]. intros k. rewrite H1.
  pose proof (pm_run_ok memeq ops (fun _ => []) (fun _ => None) Hu Hl (fun _ => I) k) as X.
  unfold mm_run, im_run in *.
  destruct (fold_left (mm_step memeq) ops (fun _ => []) k) as [|e [|? ?]],
           (fold_left im_step ops (fun _ => None) k); try contradiction X; auto.
Qed.
