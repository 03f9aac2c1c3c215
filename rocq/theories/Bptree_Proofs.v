(* Tree-level proofs for the B+ tree: invariant, lookup, insertion, deletion. *)
From Verif Require Import Base Bptree_Model Bptree_Arr.
From Coq Require Import Sorted.

(* ---------- string order ---------- *)
Lemma byteN_inj a b : byteN a = byteN b -> a = b.
Proof. unfold byteN. intros H. rewrite <- (ascii_N_embedding a), <- (ascii_N_embedding b), H. reflexivity. Qed.

Lemma scmp_eq a : forall b, scmp a b = Eq <-> a = b.
Proof.
  induction a as [|x a IH]; intros [|y b]; cbn; split; intros H; try congruence; auto.
  - destruct (N.compare_spec (byteN x) (byteN y)) as [E|E|E]; try discriminate. f_equal; [apply byteN_inj; auto|apply IH; auto].
  - injection H as -> ->. rewrite N.compare_refl. apply IH; auto.
Qed.
Lemma scmp_refl a : scmp a a = Eq.
Proof. apply scmp_eq; auto. Qed.
Lemma scmp_anti a : forall b, scmp b a = CompOpp (scmp a b).
Proof.
  induction a as [|x a IH]; intros [|y b]; cbn; auto.
  rewrite (N.compare_antisym (byteN x) (byteN y)). destruct (N.compare (byteN x) (byteN y)); cbn; auto.
Qed.
Definition slt (a b : list ascii) : Prop := scmp a b = Lt.
Lemma slt_trans a : forall b c, slt a b -> slt b c -> slt a c.
Proof.
  unfold slt. induction a as [|x a IH]; intros [|y b] [|z c] H1 H2; cbn in *; try congruence; auto.
  destruct (N.compare_spec (byteN x) (byteN y)) as [E|E|E], (N.compare_spec (byteN y) (byteN z)) as [F|F|F]; try discriminate.
  - apply byteN_inj in E, F. subst. rewrite N.compare_refl. eauto.
  - destruct (N.compare_spec (byteN x) (byteN z)); auto; lia.
  - destruct (N.compare_spec (byteN x) (byteN z)); auto; lia.
  - destruct (N.compare_spec (byteN x) (byteN z)); auto; lia.
Qed.
Lemma slt_irrefl a : ~ slt a a.
Proof. unfold slt. rewrite scmp_refl. discriminate. Qed.
Lemma slt_neq a b : slt a b -> a <> b.
Proof. intros H ->. exact (slt_irrefl b H). Qed.
Lemma slt_asym a b : slt a b -> ~ slt b a.
Proof. intros H1 H2. exact (slt_irrefl a (slt_trans _ _ _ H1 H2)). Qed.

Lemma sgt_lt a b : sgt a b = true <-> slt b a.
Proof. unfold sgt, slt. rewrite (scmp_anti a b). destruct (scmp a b); cbn; split; congruence. Qed.
Lemma sgt_false a b : sgt a b = false <-> a = b \/ slt a b.
Proof.
  unfold sgt, slt. destruct (scmp a b) eqn:E; split; intros H; try congruence; auto.
  - left. apply scmp_eq; auto.
  - destruct H as [->|]; [rewrite scmp_refl in E|]; congruence.
Qed.
Lemma sle_true a b : sle a b = true <-> a = b \/ slt a b.
Proof. rewrite <- sgt_false. unfold sle, sgt. destruct (scmp a b); split; congruence. Qed.
Lemma sle_false a b : sle a b = false <-> slt b a.
Proof. rewrite <- sgt_lt. unfold sle, sgt. destruct (scmp a b); split; congruence. Qed.
Lemma seq_true a b : seq a b = true <-> a = b.
Proof. rewrite <- scmp_eq. unfold seq. destruct (scmp a b); split; congruence. Qed.
Lemma seq_refl a : seq a a = true.
Proof. apply seq_true; auto. Qed.
Lemma seq_false a b : seq a b = false <-> a <> b.
Proof. rewrite <- seq_true. destruct (seq a b); split; congruence. Qed.
Lemma seq_spec a b : reflect (a = b) (seq a b).
Proof. destruct (seq a b) eqn:E; constructor; [apply seq_true|apply seq_false]; auto. Qed.
Lemma seq_sym a b : seq a b = seq b a.
Proof. destruct (seq_spec a b), (seq_spec b a); congruence. Qed.

(* ---------- sorted lists ---------- *)
Notation SS := (StronglySorted slt).

Lemma SS_app a b : SS (a ++ b) <-> SS a /\ SS b /\ forall x y, In x a -> In y b -> slt x y.
Proof.
  induction a as [|h t IH]; cbn.
  - split; [intros H; repeat split; auto; [constructor|contradiction]|tauto].
  - split.
    + intros H. inversion H as [|? ? H1 H2]; subst. apply IH in H1 as (H3 & H4 & H5). rewrite Forall_app in H2. destruct H2 as [H6 H7].
      repeat split; auto; [constructor; auto|]. intros x y [<-|Hx] Hy; auto. rewrite Forall_forall in H7; auto.
    + intros (H1 & H2 & H3). inversion H1; subst. constructor.
      * apply IH. repeat split; auto.
      * rewrite Forall_app. split; auto. rewrite Forall_forall. auto.
Qed.
Lemma SS_cons a l : SS (a :: l) <-> SS l /\ forall x, In x l -> slt a x.
Proof.
  split.
  - intros H; inversion H; subst. rewrite Forall_forall in *. auto.
  - intros [H1 H2]. constructor; auto. rewrite Forall_forall; auto.
Qed.
Lemma SS_NoDup l : SS l -> NoDup l.
Proof.
  induction l as [|a l IH]; intros H; constructor; apply SS_cons in H as [H1 H2]; auto.
  intros Hin. exact (slt_irrefl a (H2 a Hin)).
Qed.

(* ---------- contents of a tree ---------- *)
Notation entry := (list ascii * N)%type.

Fixpoint keys (t : tree) : list (list ascii) := match t with Leaf _ _ ks _ => ks | Node _ cs => flat_map keys cs end.
Fixpoint ents (t : tree) : list entry := match t with Leaf _ _ ks rs => combine ks rs | Node _ cs => flat_map ents cs end.
Fixpoint links (t : tree) : list (N * option N) := match t with Leaf a nx _ _ => [(a, nx)] | Node _ cs => flat_map links cs end.
Fixpoint seps (t : tree) : list (list ascii) := match t with Leaf _ _ _ _ => [] | Node ks cs => ks ++ flat_map seps cs end.
Fixpoint nodes (t : tree) : nat := match t with Leaf _ _ _ _ => 1 | Node _ cs => S (list_sum (map nodes cs)) end.
Definition maxk (t : tree) : list ascii := last (keys t) [].
Definition seps_of (cs : list tree) : list (list ascii) := map maxk (removelast cs).

Definition minn (o h : nat) : nat := match h with O => cut (o - 1) | S _ => cut o - 1 end.

Inductive wf (o : nat) : nat -> nat -> tree -> Prop :=
| wf_leaf : forall m a nx ks rs, length ks = length rs -> m <= length ks <= o - 1 -> wf o 0 m (Leaf a nx ks rs)
| wf_node : forall h m ks cs, length cs = S (length ks) -> m <= length ks <= o - 1 ->
    (forall c, In c cs -> wf o h (minn o h) c) -> ks = seps_of cs -> wf o (S h) m (Node ks cs).

Lemma minn_pos o h : 4 <= o -> 1 <= minn o h.
Proof. intros H. destruct h; unfold minn; [pose proof (cut_le (o - 1) ltac:(lia))|pose proof (cut_le o ltac:(lia))]; lia. Qed.

Lemma wf_weaken o h m m' t : wf o h m t -> m' <= m -> wf o h m' t.
Proof. intros H L. inversion H; subst; constructor; auto; lia. Qed.
Lemma wf_nk o h m t : wf o h m t -> m <= num_keys t <= o - 1.
Proof. intros H; inversion H; subst; cbn; lia. Qed.
Lemma wf_strengthen o h m m' t : wf o h m t -> m' <= num_keys t -> wf o h m' t.
Proof. intros H L. inversion H; subst; cbn in L; constructor; auto; lia. Qed.
Lemma wf_is_leaf o h m t : wf o h m t -> is_leaf t = (h =? 0).
Proof. intros H; inversion H; subst; reflexivity. Qed.

Ltac inv_wf H := inversion H as [? a nx ks rs Hlen Hb|? ? ks cs Hlen Hb Hc Hks]; subst.

Lemma keys_ne o h : 4 <= o -> forall m t, wf o h m t -> (1 <= m \/ h <> 0) -> keys t <> [].
Proof.
  intros Ho. induction h as [|h IH]; intros m t H Hm; inv_wf H; cbn.
  - destruct ks; cbn in *; [lia|discriminate].
  - destruct cs as [|c cs]; [discriminate|]. cbn. intros E. apply app_eq_nil in E as [E _].
    apply (IH (minn o h) c); auto; [apply Hc; left; auto|left; apply minn_pos; auto].
Qed.

Lemma ents_keys o h : forall m t, wf o h m t -> map fst (ents t) = keys t.
Proof.
  induction h as [|h IH]; intros m t H; inv_wf H; cbn.
  - clear -Hlen. revert rs Hlen. induction ks as [|k ks IHk]; intros [|r rs] E; cbn in *; try discriminate; auto. f_equal. auto.
  - clear H Hlen Hb. induction cs as [|c cs IHc]; cbn; auto. rewrite map_app, (IH (minn o h) c) by (apply Hc; left; auto).
    f_equal. apply IHc. intros; apply Hc; right; auto.
Qed.

Lemma last_in {A} (l : list A) d : l <> [] -> In (last l d) l.
Proof.
  induction l as [|x [|y l] IH]; intros H; [congruence|left; auto|]. right. apply IH. discriminate.
Qed.
Lemma last_app_ne {A} (a b : list A) d : b <> [] -> last (a ++ b) d = last b d.
Proof.
  intros H. induction a as [|x a IH]; auto. cbn. destruct (a ++ b) eqn:E; auto.
  apply app_eq_nil in E as [_ E]. congruence.
Qed.
Lemma SS_last l x d : SS l -> In x l -> x = last l d \/ slt x (last l d).
Proof.
  intros H Hx. destruct (exists_last (l := l)) as (l0 & y & ->); [intros ->; destruct Hx|].
  rewrite last_last. apply SS_app in H as (_ & _ & H). apply in_app_iff in Hx as [Hx|[->|[]]]; auto.
  right. apply H; auto. left; auto.
Qed.
Lemma maxk_in t : keys t <> [] -> In (maxk t) (keys t).
Proof. apply last_in. Qed.
Lemma maxk_max t x : SS (keys t) -> In x (keys t) -> x = maxk t \/ slt x (maxk t).
Proof. apply SS_last. Qed.
Lemma flat_keys_ne cs : cs <> [] -> (forall c, In c cs -> keys c <> []) -> flat_map keys cs <> [].
Proof.
  destruct cs as [|c cs]; [congruence|]. intros _ H E. cbn in E. apply app_eq_nil in E as [E _]. apply (H c); auto. left; auto.
Qed.
Lemma maxk_node ks l c : keys c <> [] -> maxk (Node ks (l ++ [c])) = maxk c.
Proof. intros H. unfold maxk. cbn. rewrite flat_map_app. cbn. rewrite app_nil_r. apply last_app_ne; auto. Qed.

Lemma seps_of_app A c B : seps_of (A ++ c :: B) = map maxk A ++ match B with [] => [] | _ => maxk c :: seps_of B end.
Proof.
  unfold seps_of. rewrite removelast_app by discriminate. rewrite map_app. f_equal. destruct B; reflexivity.
Qed.
Lemma seps_of_cons c B : seps_of (c :: B) = match B with [] => [] | _ => maxk c :: seps_of B end.
Proof. apply (seps_of_app [] c B). Qed.
Lemma seps_of_length cs : length (seps_of cs) = length cs - 1.
Proof.
  unfold seps_of. rewrite map_length. destruct cs as [|c cs]; auto.
  destruct (exists_last (l := c :: cs)) as (l & x & ->); [discriminate|]. rewrite removelast_last, app_length. cbn. lia.
Qed.

(* ---------- descent ---------- *)
Lemma descend k : forall cs, cs <> [] -> (forall c, In c cs -> keys c <> []) -> SS (flat_map keys cs) ->
  exists A c B, cs = A ++ c :: B /\ length A = child_idx k (seps_of cs) /\
    (forall x, In x (flat_map keys A) -> slt x k) /\
    (B <> [] -> k = maxk c \/ slt k (maxk c)) /\
    (forall x, In x (flat_map keys B) -> slt k x).
Proof.
  induction cs as [|c cs IH]; intros Hne Hk Hs; [congruence|].
  cbn in Hs. apply SS_app in Hs as (Hs1 & Hs2 & Hs3).
  destruct cs as [|d cs].
  - exists [], c, []. repeat split; auto; try contradiction.
  - rewrite seps_of_cons. cbn [child_idx].
    assert (Hc : In (maxk c) (keys c)) by (apply maxk_in, Hk; left; auto).
    destruct (sgt k (maxk c)) eqn:E.
    + apply sgt_lt in E.
      destruct IH as (A & c' & B & -> & HA & H1 & H2 & H3); [discriminate|intros; apply Hk; right; auto|exact Hs2|].
      exists (c :: A), c', B. repeat split; auto.
      * cbn [length]. rewrite HA. reflexivity.
      * intros x Hx. cbn in Hx. apply in_app_iff in Hx as [Hx|Hx]; auto.
        destruct (maxk_max c x Hs1 Hx) as [->|L]; auto. eapply slt_trans; eauto.
    + apply sgt_false in E. exists [], c, (d :: cs). repeat split; auto; try contradiction.
      intros x Hx. destruct E as [->|L]; [|eapply slt_trans; eauto]; apply Hs3; auto.
Qed.

Ltac go_eq cs i := generalize i; induction cs as [|? ? IHcs]; intros [|?]; cbn; auto.

Lemma find_leaf_node ks cs k : find_leaf (Node ks cs) k = let! c := get cs (child_idx k ks) in find_leaf c k.
Proof. cbn [find_leaf]. unfold get. go_eq cs (child_idx k ks). Qed.
Lemma ins_node o ks cs k r fr :
  ins o (Node ks cs) k r fr =
  let! c := get cs (child_idx k ks) in let! x := ins o c k r fr in ins_parent o ks cs (child_idx k ks) x.
Proof.
  cbn [ins]. unfold get. set (f := ins_parent o ks cs (child_idx k ks)). clearbody f.
  generalize (child_idx k ks). intros i. 
  transitivity (let! x := match nth_error cs i with Some c => ins o c k r fr | None => UB end in f x);
    [|destruct (nth_error cs i); reflexivity].
  f_equal. go_eq cs i.
Qed.
Lemma needed_node o ks cs k :
  needed o (Node ks cs) k =
  let! c := get cs (child_idx k ks) in let! x := needed o c k in
  if snd x then if length ks =? o - 1 then Ok (S (fst x), true) else Ok (fst x, false) else Ok x.
Proof.
  cbn [needed]. unfold get. generalize (child_idx k ks). intros i.
  transitivity (let! x := match nth_error cs i with Some c => needed o c k | None => UB end in
     if snd x then if length ks =? o - 1 then Ok (S (fst x), true) else Ok (fst x, false) else Ok x);
    [|destruct (nth_error cs i); reflexivity].
  f_equal. go_eq cs i.
Qed.
Definition del_up (o : nat) (ks : list (list ascii)) (cs : list tree) (i : nat) (k : list ascii) (x : dres) : outcome dres :=
  let '(ks1, pend, fx) := swap_sep ks k (dpend x) in
  let cs1 := list_set cs i (dt x) in
  if dshrunk x then
    let! y := rebalance o ks1 cs1 i in
    let '(ks2, cs2, lg, shrunk, freed) := y in
    Ok {| dt := Node ks2 cs2; dpend := pend; dfix := dfix x ++ fx; dlog := dlog x ++ lg; dshrunk := shrunk;
          dfreed := dfreed x + freed |}
  else
    Ok {| dt := Node ks1 cs1; dpend := pend; dfix := dfix x ++ fx; dlog := dlog x; dshrunk := false;
          dfreed := dfreed x |}.
Lemma del_node o nr ks cs k r :
  del o nr (Node ks cs) k r =
  let! c := get cs (child_idx k ks) in let! x := del o true c k r in del_up o ks cs (child_idx k ks) k x.
Proof.
  cbn [del]. unfold get. fold (del_up o ks cs (child_idx k ks) k).
  change (fun x : dres => let '(ks1, pend, fx) := swap_sep ks k (dpend x) in _) with (del_up o ks cs (child_idx k ks) k).
  set (f := del_up o ks cs (child_idx k ks) k). clearbody f.
  generalize (child_idx k ks). intros i.
  transitivity (let! x := match nth_error cs i with Some c => del o true c k r | None => UB end in f x);
    [|destruct (nth_error cs i); reflexivity].
  f_equal. go_eq cs i.
Qed.
Lemma set_ptr_node ks cs k r :
  set_ptr (Node ks cs) k r =
  let! c := get cs (child_idx k ks) in let! c' := set_ptr c k r in Ok (Node ks (list_set cs (child_idx k ks) c')).
Proof.
  cbn [set_ptr]. unfold get. generalize (child_idx k ks) at 1 3. intros i.
  transitivity (let! c' := match nth_error cs i with Some c => set_ptr c k r | None => UB end in
      Ok (Node ks (list_set cs (child_idx k ks) c')));
    [|destruct (nth_error cs i); reflexivity].
  f_equal. go_eq cs i.
Qed.

Lemma get_mid {A} (a : list A) x b : get (a ++ x :: b) (length a) = Ok x.
Proof. unfold get. rewrite nth_error_app2, Nat.sub_diag by lia. reflexivity. Qed.
Lemma list_set_mid {A} (a : list A) x y b : list_set (a ++ x :: b) (length a) y = a ++ y :: b.
Proof. induction a; cbn; auto. f_equal; auto. Qed.

(* ---------- lookup ---------- *)
Lemma find_leaf_ok o k : 4 <= o -> forall h m t, wf o h m t -> 1 <= m -> SS (keys t) ->
  exists a nx ks rs LA LB, find_leaf t k = Ok (Leaf a nx ks rs) /\ leaves t = LA ++ Leaf a nx ks rs :: LB /\
    length ks = length rs /\ ks <> [] /\
    (forall x, In x (flat_map keys LA) -> slt x k) /\
    (LB <> [] -> k = last ks [] \/ slt k (last ks [])) /\
    (forall x, In x (flat_map keys LB) -> slt k x).
Proof.
  intros Ho. 
  assert (Hl : forall t, flat_map keys (leaves t) = keys t).
  { fix IH 1. intros [a nx ks rs|ks cs]; cbn; [apply app_nil_r|].
    induction cs as [|c cs IHc]; cbn; auto. rewrite flat_map_app, IH, IHc. reflexivity. }
  induction h as [|h IH]; intros m t H Hm Hs; inv_wf H.
  - exists a, nx, ks, rs, [], []. cbn. repeat split; auto; try contradiction; try congruence.
    destruct ks; cbn in *; [lia|discriminate].
  - destruct (descend k cs) as (A & c & B & -> & HA & H5 & H6 & H7).
    + destruct cs; discriminate.
    + intros c Hin. eapply keys_ne; eauto. left. apply minn_pos; auto.
    + exact Hs.
    + rewrite find_leaf_node, <- HA, get_mid. cbn [obind].
      assert (Hin : In c (A ++ c :: B)) by (apply in_app_iff; right; left; auto).
      cbn in Hs. rewrite flat_map_app in Hs. cbn in Hs.
      apply SS_app in Hs as (_ & Hs & _). apply SS_app in Hs as (Hs & _ & _).
      destruct (IH _ c (Hc c Hin) (minn_pos o h Ho) Hs) as (a & nx & ks & rs & LA & LB & E & EL & L1 & L2 & G1 & G2 & G3).
      exists a, nx, ks, rs, (flat_map leaves A ++ LA), (LB ++ flat_map leaves B). repeat split; auto.
      * cbn. rewrite flat_map_app. cbn. rewrite EL. rewrite <- !app_assoc. reflexivity.
      * intros x Hx. rewrite flat_map_app in Hx. apply in_app_iff in Hx as [Hx|Hx]; auto.
        apply H5. clear -Hl Hx. induction A as [|t A IHA]; cbn in *; [contradiction|].
        rewrite flat_map_app, Hl in Hx. apply in_app_iff. apply in_app_iff in Hx as [|]; auto.
      * intros Hne. destruct LB as [|lb LB]; [|apply G2; discriminate].
        destruct B as [|b B]; [cbn in Hne; congruence|].
        assert (Em : maxk c = last ks []).
        { unfold maxk. rewrite <- Hl, EL, flat_map_app. cbn. rewrite app_nil_r. apply last_app_ne; auto. }
        rewrite <- Em. apply H6. discriminate.
      * intros x Hx. rewrite flat_map_app in Hx. apply in_app_iff in Hx as [Hx|Hx]; auto.
        apply H7. clear -Hl Hx. induction B as [|t B IHB]; cbn in *; [contradiction|].
        rewrite flat_map_app, Hl in Hx. apply in_app_iff. apply in_app_iff in Hx as [|]; auto.
Qed.

Lemma leaves_keys t : flat_map keys (leaves t) = keys t.
Proof.
  revert t. fix IH 1. intros [a nx ks rs|ks cs]; cbn; [apply app_nil_r|].
  induction cs as [|c cs IHc]; cbn; auto. rewrite flat_map_app, IH, IHc. reflexivity.
Qed.
Lemma leaves_ents t : flat_map ents (leaves t) = ents t.
Proof.
  revert t. fix IH 1. intros [a nx ks rs|ks cs]; cbn; [apply app_nil_r|].
  induction cs as [|c cs IHc]; cbn; auto. rewrite flat_map_app, IH, IHc. reflexivity.
Qed.

(* association lists *)
Definition sfind (k : list ascii) (l : list entry) : option N :=
  match List.find (fun e => seq k (fst e)) l with Some e => Some (snd e) | None => None end.
Fixpoint sins (k : list ascii) (r : N) (l : list entry) : list entry :=
  match l with
  | [] => [(k, r)]
  | e :: t => if sgt k (fst e) then e :: sins k r t else (k, r) :: l
  end.
Definition sdel (k : list ascii) (l : list entry) : list entry := List.filter (fun e => negb (seq k (fst e))) l.

Lemma sfind_app k a b : sfind k (a ++ b) = match sfind k a with Some r => Some r | None => sfind k b end.
Proof.
  unfold sfind. induction a as [|e a IH]; cbn; auto. destruct (seq k (fst e)); auto.
Qed.
Lemma sfind_none k l : ~ In k (map fst l) -> sfind k l = None.
Proof.
  unfold sfind. induction l as [|e l IH]; cbn; auto. intros H. destruct (seq_spec k (fst e)); [subst; tauto|]. apply IH. tauto.
Qed.
Lemma sfind_in k l r : sfind k l = Some r -> In (k, r) l.
Proof.
  unfold sfind. induction l as [|[k' r'] l IH]; cbn; [discriminate|]. destruct (seq_spec k k') as [->|].
  - intros H; injection H as ->. auto.
  - auto.
Qed.
Lemma sfind_some k l r : NoDup (map fst l) -> In (k, r) l -> sfind k l = Some r.
Proof.
  unfold sfind. induction l as [|[k' r'] l IH]; cbn; [contradiction|]. intros Hn Hin. inversion Hn; subst.
  destruct (seq_spec k k') as [->|Hne].
  - destruct Hin as [E|Hin]; [injection E as ->; reflexivity|]. exfalso. apply H1. apply in_map_iff. exists (k', r). auto.
  - destruct Hin as [E|Hin]; [congruence|]. auto.
Qed.

Lemma find_in_combine k : forall ks (rs : list N), length ks = length rs ->
  sfind k (combine ks rs) = if find_in (seq k) ks =? length ks then None else nth_error rs (find_in (seq k) ks).
Proof.
  unfold sfind. induction ks as [|x ks IH]; intros [|r rs] E; cbn in *; try discriminate; [reflexivity|].
  destruct (seq k x); cbn; auto.
Qed.

Lemma combine_fst {A B} : forall (a : list A) (b : list B), length a = length b -> map fst (combine a b) = a.
Proof. induction a; intros [|y b] E; cbn in *; try discriminate; auto. f_equal; auto. Qed.

Lemma find_exact_ok o h m t k : 4 <= o -> wf o h m t -> 1 <= m -> SS (keys t) ->
  exists lf i, find t EXACT k = Ok (lf, i, sfind k (ents t)).
Proof.
  intros Ho H Hm Hs. destruct (find_leaf_ok o k Ho h m t H Hm Hs) as (a & nx & ks & rs & LA & LB & E & EL & L1 & L2 & G1 & G2 & G3).
  unfold find. rewrite E. cbn [obind].
  assert (Ef : sfind k (ents t) = sfind k (combine ks rs)).
  { rewrite <- leaves_ents, EL, flat_map_app. cbn.
    assert (Hfl : forall L, (forall l, In l L -> In l (leaves t)) -> map fst (flat_map ents L) = flat_map keys L).
    { intros L HL. assert (Hw : forall l, In l (leaves t) -> map fst (ents l) = keys l).
      { clear -H. revert m t H. induction h as [|h IH]; intros m t H; inv_wf H; cbn; intros l Hl.
        - destruct Hl as [<-|[]]. cbn. apply combine_fst; auto.
        - apply in_flat_map in Hl as (c & Hin & Hl). eapply IH; eauto. }
      induction L as [|l L IHL]; cbn; auto. rewrite map_app, Hw by (apply HL; left; auto). f_equal. apply IHL. intros; apply HL; right; auto. }
    rewrite !sfind_app. rewrite sfind_none.
    - destruct (sfind k (combine ks rs)); auto. apply sfind_none. rewrite Hfl.
      + intros Hin. exact (slt_irrefl _ (G3 _ Hin)).
      + intros l Hl. rewrite EL. apply in_app_iff. right. right. auto.
    - rewrite Hfl.
      + intros Hin. exact (slt_irrefl _ (G1 _ Hin)).
      + intros l Hl. rewrite EL. apply in_app_iff. auto. }
  rewrite Ef, find_in_combine by auto. change (kmatch EXACT k) with (seq k).
  destruct (Nat.eqb_spec (find_in (seq k) ks) (length ks)); [eauto|].
  assert (Hlt : find_in (seq k) ks < length rs).
  { rewrite <- L1. assert (find_in (seq k) ks <= length ks); [|lia].
    clear. induction ks; cbn; [lia|]. destruct (seq k a); lia. }
  destruct (get_ok rs _ Hlt) as (r & -> & Er). cbn [obind]. rewrite Er. eauto.
Qed.
