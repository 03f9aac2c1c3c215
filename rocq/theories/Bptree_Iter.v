(* Iteration over the B+ tree. *)
From Verif Require Import Base Bptree_Model Bptree_Arr Bptree_Proofs Bptree_Ins Bptree_Del Bptree_Spec Bptree_Api Bptree_Sim Bptree_Run.
From Coq Require Import Sorted Permutation.

Definition lf_ok (l : tree) : Prop := match l with Leaf _ _ ks rs => length ks = length rs /\ ks <> [] | Node _ _ => False end.
Definition lf_link (l : tree) : N * option N := match l with Leaf a nx _ _ => (a, nx) | Node _ _ => (0%N, None) end.

Lemma leaves_ok o h : 4 <= o -> forall m t, wf o h m t -> 1 <= m -> Forall lf_ok (leaves t).
Proof.
  intros Ho. induction h as [|h IH]; intros m t W Hm; inv_wf W; cbn.
  - constructor; auto. split; auto. destruct ks; cbn in *; [lia|discriminate].
  - apply Forall_forall. intros l Hl. apply in_flat_map in Hl as (c & Hc1 & Hl). pose proof (IH _ c (Hc c Hc1) (minn_pos o h Ho)) as F.
    rewrite Forall_forall in F. auto.
Qed.
Lemma leaves_links t : map lf_link (leaves t) = links t.
Proof.
  revert t. fix IH 1. intros [a nx ks rs|ks cs]; cbn; auto.
  induction cs as [|c cs IHc]; cbn; auto. rewrite map_app, IH, IHc. reflexivity.
Qed.

Lemma leaf_at_ok t LA a nx ks rs LB : leaves t = LA ++ Leaf a nx ks rs :: LB -> Forall lf_ok (leaves t) -> NoDup (map fst (links t)) ->
  leaf_at t a = Ok (Leaf a nx ks rs).
Proof.
  intros E F N. unfold leaf_at. rewrite <- leaves_links, map_map in N. rewrite E in *. clear E.
  induction LA as [|l LA IH]; cbn [app List.find leaf_addr].
  - rewrite N.eqb_refl. reflexivity.
  - cbn in N. inversion N; subst. inversion F; subst. destruct l as [b ? ? ?|]; [|contradiction]. cbn [leaf_addr].
    destruct (N.eqb_spec a b) as [<-|]; [|apply IH; auto].
    exfalso. apply H1. apply in_map_iff. exists (Leaf a nx ks rs). split; auto. apply in_app_iff. right; left; auto.
Qed.

Definition good (it : biter) (k : list ascii) : bool :=
  match im it with
  | EXACT => match iend it with Some e => negb (sgt k e) | None => true end
  | PREFIX => match istart it with Some p => is_prefix p k | None => true end
  end.
Fixpoint takew {A} (p : A -> bool) (l : list A) : list A :=
  match l with
  | [] => []
  | x :: r => if p x then x :: takew p r else []
  end.
Definition ev (s : bpt) (e : entry) : list ascii * (N * N * N) :=
  (fst e, match recs s (snd e) with Some x => (rdata x, rsize x, rref x) | None => (0, 0, 0)%N end).
Definition set_ic (it : biter) (c : option (N * nat)) : biter := {| im := im it; istart := istart it; iend := iend it; ic := c |}.

(* what happens once the position is chosen *)
Definition at_pos (s : bpt) (it : biter) (p : option (tree * nat)) : outcome (biter * option (list ascii * (N * N * N))) :=
  let stop := {| im := im it; istart := istart it; iend := iend it; ic := None |} in
  match p with
  | None => Ok (stop, None)
  | Some (Leaf a _ ks rs, i) =>
      let! k := get ks i in
      let out := match im it with
                 | EXACT => match iend it with Some e => sgt k e | None => false end
                 | PREFIX => match istart it with Some p => negb (is_prefix p k) | None => false end
                 end in
      if out then Ok (stop, None)
      else
        let! r := get rs i in
        let! x := deref s r in
        Ok ({| im := im it; istart := istart it; iend := iend it; ic := Some (a, i) |},
            Some (k, (rdata x, rsize x, rref x)))
  | Some (Node _ _, _) => UB
  end.
Lemma next_at s it : bptree_iter_next s it = let! p := iter_move s it in at_pos s it p.
Proof. reflexivity. Qed.

Lemma at_leaf s it a nx ks rs i : length ks = length rs -> i < length ks ->
  (forall e, In e (combine ks rs) -> recs s (snd e) <> None) ->
  exists k r, skipn i (combine ks rs) = (k, r) :: skipn (S i) (combine ks rs) /\
    at_pos s it (Some (Leaf a nx ks rs, i)) =
      if good it k then Ok (set_ic it (Some (a, i)), Some (ev s (k, r))) else Ok (set_ic it None, None).
Proof.
  intros HL Hi Hr. destruct (get_ok ks i Hi) as (k & Ek & Nk). destruct (get_ok rs i ltac:(lia)) as (r & Er & Nr).
  exists k, r.
  assert (Hs : skipn i (combine ks rs) = (k, r) :: skipn (S i) (combine ks rs)).
  { clear -HL Nk Nr. revert ks rs HL Nk Nr. induction i as [|i IH]; intros [|x ks] [|y rs] HL Nk Nr; try discriminate.
    - cbn in *. congruence.
    - cbn [combine]. change (skipn (S i) ((x, y) :: combine ks rs)) with (skipn i (combine ks rs)). rewrite (IH ks rs); auto. }
  split; auto. cbn [at_pos]. rewrite Ek. cbn [obind].
  assert (Hin : In (k, r) (combine ks rs)).
  { rewrite <- (firstn_skipn i (combine ks rs)), Hs. apply in_app_iff. right; left; auto. }
  specialize (Hr _ Hin). cbn in Hr. destruct (recs s r) as [x|] eqn:Ex; [|congruence].
  assert (Eg : (match im it with
                 | EXACT => match iend it with Some e => sgt k e | None => false end
                 | PREFIX => match istart it with Some p => negb (is_prefix p k) | None => false end
                 end) = negb (good it k)).
  { unfold good. destruct (im it); [destruct (iend it)|destruct (istart it)]; auto. rewrite Bool.negb_involutive; auto. }
  rewrite Eg. destruct (good it k); cbn [negb]; auto.
  rewrite Er. cbn [obind]. unfold deref. rewrite Ex. cbn [obind]. unfold ev. cbn [fst snd]. rewrite Ex. reflexivity.
Qed.

Lemma good_set it c k : good (set_ic it c) k = good it k.
Proof. reflexivity. Qed.
Lemma set_set it c d : set_ic (set_ic it c) d = set_ic it d.
Proof. reflexivity. Qed.

Section Walk.
  Variables (s : bpt) (t : tree) (it : biter).
  Hypothesis (Et : root s = Some t).
  Hypothesis (Fl : Forall lf_ok (leaves t)).
  Hypothesis (Ch : linked (links t)) (Nd : NoDup (map fst (links t))).
  Hypothesis (Hr : forall e, In e (ents t) -> recs s (snd e) <> None).

  Lemma leaf_recs LA a nx ks rs LB : leaves t = LA ++ Leaf a nx ks rs :: LB ->
    forall e, In e (combine ks rs) -> recs s (snd e) <> None.
  Proof.
    intros E e He. apply Hr. rewrite <- leaves_ents, E, flat_map_app. apply in_app_iff. right. cbn. apply in_app_iff; auto.
  Qed.

  (* [fin x]: outcome of the loop when the next entry, if any, is the head of the list *)
  Lemma loop_from : forall fuel LA a nx ks rs LB i, leaves t = LA ++ Leaf a nx ks rs :: LB -> i < length ks ->
    let rem := skipn (S i) (combine ks rs) ++ flat_map ents LB in
    length rem < fuel ->
    iter_all fuel s (set_ic it (Some (a, i))) = Ok (Some (map (ev s) (takew (fun e => good it (fst e)) rem))).
  Proof.
    induction fuel as [|f IH]; intros LA a nx ks rs LB i E Hi rem Hf; [lia|].
    assert (FL : length ks = length rs /\ ks <> []).
    { rewrite E in Fl. rewrite Forall_forall in Fl. specialize (Fl (Leaf a nx ks rs)). apply Fl. apply in_app_iff; right; left; auto. }
    destruct FL as [HL _]. pose proof (leaf_recs _ _ _ _ _ _ E) as HR.
    cbn [iter_all]. rewrite next_at. unfold iter_move. cbn [ic set_ic]. rewrite Et, (leaf_at_ok _ _ _ _ _ _ _ E Fl Nd). cbn [obind].
    destruct (Nat.ltb_spec (i + 1) (length ks)) as [Hlt|Hge].
    - cbn [obind]. destruct (at_leaf s (set_ic it (Some (a, i))) a nx ks rs (S i) HL ltac:(lia) HR) as (k & r & Es & ->).
      rewrite good_set. unfold rem in *. rewrite Es in *. cbn [app takew fst].
      destruct (good it k); cbn [obind snd fst]; [|reflexivity]. rewrite set_set.
      rewrite (IH LA a nx ks rs LB (S i) E ltac:(lia)); [reflexivity|]. cbn [app length] in Hf. lia.
    - assert (Er : skipn (S i) (combine ks rs) = []).
      { apply skipn_all2. rewrite combine_length. lia. }
      unfold rem in *. rewrite Er in *. cbn [app] in *.
      assert (Hnx : nx = match LB with Leaf b _ _ _ :: _ => Some b | _ => None end).
      { rewrite <- leaves_links, E, map_app in Ch. apply linked_app in Ch. cbn in Ch. destruct Ch as [C1 _].
        destruct LB as [|[b ? ? ?|] LB]; cbn in C1; auto. exfalso.
        rewrite E in Fl. rewrite Forall_forall in Fl. eapply Fl with (x := Node _ _). apply in_app_iff. right; right; left. eauto. }
      destruct LB as [|[b nb kb rb|] LB].
      + subst nx. cbn. reflexivity.
      + subst nx. rewrite (leaf_at_ok t (LA ++ [Leaf a (Some b) ks rs]) b nb kb rb LB) by (auto; rewrite E, <- app_assoc; reflexivity).
        cbn [obind].
        assert (E' : leaves t = (LA ++ [Leaf a (Some b) ks rs]) ++ Leaf b nb kb rb :: LB) by (rewrite E, <- app_assoc; reflexivity).
        assert (FL : length kb = length rb /\ kb <> []).
        { rewrite E' in Fl. rewrite Forall_forall in Fl. specialize (Fl (Leaf b nb kb rb)). apply Fl. apply in_app_iff; right; left; auto. }
        destruct FL as [HLb Hne].
        destruct (at_leaf s (set_ic it (Some (a, i))) b nb kb rb 0 HLb ltac:(destruct kb; cbn; [congruence|lia]) (leaf_recs _ _ _ _ _ _ E')) as (k & r & Es & ->).
        rewrite good_set. cbn [flat_map ents] in *. change (skipn 0 (combine kb rb)) with (combine kb rb) in Es. rewrite Es in *. cbn [app takew fst].
        destruct (good it k); cbn [obind snd fst]; [|reflexivity]. rewrite set_set.
        rewrite (IH (LA ++ [Leaf a (Some b) ks rs]) b nb kb rb LB 0 E' ltac:(destruct kb; cbn; [congruence|lia])); [reflexivity|].
        cbn [app length] in Hf. lia.
      + exfalso. rewrite E in Fl. rewrite Forall_forall in Fl. eapply Fl with (x := Node _ _). apply in_app_iff. right; right; left. eauto.
  Qed.

  Lemma loop_start fuel LA a nx ks rs LB i : leaves t = LA ++ Leaf a nx ks rs :: LB -> i < length ks ->
    iter_move s (set_ic it None) = Ok (Some (Leaf a nx ks rs, i)) ->
    let rem := skipn i (combine ks rs) ++ flat_map ents LB in
    length rem < fuel ->
    iter_all fuel s (set_ic it None) = Ok (Some (map (ev s) (takew (fun e => good it (fst e)) rem))).
  Proof.
    intros E Hi Hm rem Hf. destruct fuel as [|f]; [lia|].
    assert (FL : length ks = length rs /\ ks <> []).
    { rewrite E in Fl. rewrite Forall_forall in Fl. specialize (Fl (Leaf a nx ks rs)). apply Fl. apply in_app_iff; right; left; auto. }
    destruct FL as [HL _].
    cbn [iter_all]. rewrite next_at, Hm. cbn [obind].
    destruct (at_leaf s (set_ic it None) a nx ks rs i HL Hi (leaf_recs _ _ _ _ _ _ E)) as (k & r & Es & ->).
    rewrite good_set. unfold rem in *. rewrite Es in *. cbn [app takew fst].
    destruct (good it k); cbn [obind snd fst]; [|reflexivity]. rewrite set_set.
    rewrite (loop_from f LA a nx ks rs LB i E Hi); [reflexivity|]. cbn [app length] in Hf. lia.
  Qed.
End Walk.

(* ---------- where iteration starts ---------- *)
Lemma first_leaf_ok o h : 4 <= o -> forall m t, wf o h m t -> 1 <= m -> exists a nx ks rs LB, first_leaf t = Ok (Leaf a nx ks rs) /\ leaves t = Leaf a nx ks rs :: LB.
Proof.
  intros Ho. induction h as [|h IH]; intros m t W Hm; inv_wf W.
  - exists a, nx, ks, rs, []. auto.
  - destruct cs as [|c cs]; [discriminate|]. destruct (IH _ c (Hc c (or_introl eq_refl)) (minn_pos o h Ho)) as (a & nx & ks' & rs & LB & E1 & E2).
    exists a, nx, ks', rs, (LB ++ flat_map leaves cs). cbn. rewrite E2. auto.
Qed.

Lemma find_in_le {A} (p : A -> bool) l : find_in p l <= length l.
Proof. induction l as [|x l IH]; cbn; [lia|]. destruct (p x); lia. Qed.
Lemma find_in_first {A} (p : A -> bool) l i : find_in p l = i -> i < length l ->
  exists x l2, skipn i l = x :: l2 /\ p x = true /\ forall y, In y (firstn i l) -> p y = false.
Proof.
  revert i. induction l as [|x l IH]; intros i; cbn; [lia|]. destruct (p x) eqn:E.
  - intros <- _. exists x, l. cbn. repeat split; auto. intros y [].
  - intros <- H. destruct (IH (find_in p l) eq_refl ltac:(lia)) as (y & l2 & E1 & E2 & E3). exists y, l2. cbn. repeat split; auto.
    intros z [<-|Hz]; auto.
Qed.
Lemma find_in_none' {A} (p : A -> bool) l : find_in p l = length l -> forall y, In y l -> p y = false.
Proof.
  induction l as [|x l IH]; cbn; [intros _ y []|]. destruct (p x) eqn:E; [discriminate|]. intros H y [<-|Hy]; auto.
Qed.

(* ---------- order facts ---------- *)
Lemma is_prefix_spec p k : is_prefix p k = true <-> exists r, k = p ++ r.
Proof.
  revert k. induction p as [|x p IH]; intros k; cbn; [split; eauto|].
  destruct k as [|y k]; [split; [discriminate|intros (r & E); discriminate]|].
  rewrite Bool.andb_true_iff, IH. destruct (Ascii.eqb_spec x y) as [->|]; split.
  - intros [_ (r & ->)]. eauto.
  - intros (r & E). injection E as ->. eauto.
  - intros [X _]; discriminate.
  - intros (r & E). congruence.
Qed.
Lemma prefix_ge p r : p = p ++ r \/ slt p (p ++ r).
Proof.
  destruct r as [|c r]; [left; rewrite app_nil_r; auto|]. right. apply str_lt_slt. exists p. left. split; auto. eauto.
Qed.
(* a key at or above the prefix but without it is above every key with it *)
Lemma above_prefix p x r : slt p x -> is_prefix p x = false -> slt (p ++ r) x.
Proof.
  unfold slt. revert x. induction p as [|c p IH]; intros x; cbn; [discriminate|].
  destruct x as [|d x]; cbn; [discriminate|]. destruct (N.compare_spec (byteN c) (byteN d)) as [E|L|L]; try discriminate; auto.
  apply byteN_inj in E as ->. rewrite Ascii.eqb_refl. cbn. apply IH.
Qed.
Lemma takew_sorted {A} (f : A -> list ascii) (p : A -> bool) l : SS (map f l) ->
  (forall x y, In x l -> In y l -> slt (f x) (f y) -> p y = true -> p x = true) -> takew p l = filter p l.
Proof.
  induction l as [|x l IH]; cbn; intros Hs Hp; auto. apply SS_cons in Hs as [Hs Hx].
  destruct (p x) eqn:E.
  - f_equal. apply IH; auto. intros a b Ha Hb. apply Hp; auto.
  - symmetry. assert (F : forall y, In y l -> p y = false).
    { intros y Hy. apply Bool.not_true_iff_false. intros Py. rewrite (Hp x y) in E; auto; try discriminate. apply Hx. apply in_map; auto. }
    clear -F. induction l as [|y l IH]; cbn; auto. rewrite F by (left; auto). apply IH. intros; apply F; right; auto.
Qed.
Lemma SS_map_filter {A} (f : A -> list ascii) p l : SS (map f l) -> SS (map f (filter p l)).
Proof.
  induction l as [|x l IH]; cbn; auto. intros Hs. apply SS_cons in Hs as [Hs Hx]. destruct (p x); cbn; auto.
  apply SS_cons. split; auto. intros y Hy. apply in_map_iff in Hy as (z & <- & Hz). apply Hx. apply filter_In in Hz as [Hz _]. apply in_map; auto.
Qed.

(* ---------- iteration against the specification ---------- *)
Lemma SS_str l : SS l -> Sorted.StronglySorted str_lt l.
Proof.
  induction l as [|x l IH]; intros H; [constructor|]. apply SS_cons in H as [H1 H2]. constructor; auto.
  apply Forall_forall. intros y Hy. apply str_lt_slt; auto.
Qed.

Lemma ents_recs s zs : binv s zs -> forall e, In e (rents (root s)) -> recs s (snd e) <> None.
Proof.
  intros (_ & _ & Z) [k r] Hin. apply (zi_e _ _ _ _ Z) in Hin as (g & Hg & _). destruct (zi_g _ _ _ _ Z r g Hg) as (_ & _ & _ & E).
  cbn. rewrite E. discriminate.
Qed.

Lemma lists_filter s zs (p : list ascii -> bool) E' (P : list ascii -> Prop) : binv s zs -> small zs ->
  SS (map fst E') -> (forall k r, In (k, r) E' <-> In (k, r) (rents (root s)) /\ p k = true) -> (forall k, p k = true <-> P k) ->
  lists (map (ev s) E') P (map snd zs).
Proof.
  intros Hb Hsm Hss Hp HP. pose proof Hb as (T & _ & Z). split.
  - rewrite map_map. cbn. apply SS_str. exact Hss.
  - intros k v. rewrite in_map_iff. split.
    + intros ([k' r] & E & Hin). apply Hp in Hin as [Hin Pk]. destruct (lookup_in s zs k' r Hb Hsm Hin) as (g & Eg & Er).
      unfold ev in E. cbn [fst snd] in E. rewrite Er in E. injection E as <- <-. rewrite Eg. split; auto. apply HP; auto.
    + intros [E Pk]. destruct (glookup k (map snd zs)) as [g|] eqn:Eg; [|discriminate]. injection E as <-.
      assert (Hin : exists r, In (k, r) (rents (root s))).
      { apply find_some in Eg as [Hg Hk]. apply in_map_iff in Hg as ([r g'] & <- & Hg). exists r. apply (zi_e _ _ _ _ Z). exists g'. split; auto.
        apply mem_in; auto. }
      destruct Hin as [r Hin]. destruct (lookup_in s zs k r Hb Hsm Hin) as (g' & Eg' & Er). rewrite Eg in Eg'. injection Eg' as <-.
      exists (k, r). split; [unfold ev; cbn [fst snd]; rewrite Er; reflexivity|]. apply Hp. split; auto. apply HP; auto.
Qed.

Definition leb (a b : list ascii) : bool := negb (sgt a b).
Lemma leb_le a b : leb a b = true <-> str_le a b.
Proof.
  unfold leb, str_le. rewrite Bool.negb_true_iff, sgt_false, str_lt_slt. tauto.
Qed.
Definition below (e : option (list ascii)) (k : list ascii) : bool := match e with None => true | Some e => leb k e end.
Definition at_most (e : option (list ascii)) (k : list ascii) : Prop := match e with None => True | Some e => str_le k e end.
Lemma below_spec e k : below e k = true <-> at_most e k.
Proof. destruct e; cbn; [apply leb_le|tauto]. Qed.
Lemma below_mono e x y : slt x y -> below e y = true -> below e x = true.
Proof.
  destruct e as [e|]; auto. intros H L. apply leb_le in L. apply leb_le. right. apply str_lt_slt.
  destruct L as [<-|L]; auto. apply str_lt_slt in L. eapply slt_trans; eauto.
Qed.

Lemma fuel_ents s zs : binv s zs -> length (rents (root s)) = length (rkeys (root s)).
Proof. intros (T & _). rewrite <- rents_keys by auto. rewrite map_length. reflexivity. Qed.

(* number of stored names *)
Lemma iter_none s ke ks p fuel : root s = None -> 0 < fuel -> iter_all fuel s {| im := p; istart := ks; iend := ke; ic := None |} = Ok (Some []).
Proof. intros E Hf. destruct fuel; [lia|]. cbn [iter_all]. unfold bptree_iter_next, iter_move. cbn. rewrite E. reflexivity. Qed.

Lemma set_none it : ic it = None -> set_ic it None = it.
Proof. destruct it; cbn. intros ->. reflexivity. Qed.

Section Case.
  Variables (s : bpt) (zs : list (N * grp)).
  Hypothesis (Hb : binv s zs) (Hsm : small zs).

  Lemma walk_ok t it fuel LA a nx ks rs LB i : root s = Some t -> leaves t = LA ++ Leaf a nx ks rs :: LB -> i < length ks ->
    ic it = None -> iter_move s it = Ok (Some (Leaf a nx ks rs, i)) -> length (rents (root s)) < fuel ->
    iter_all fuel s it = Ok (Some (map (ev s) (takew (fun e => good it (fst e)) (skipn i (combine ks rs) ++ flat_map ents LB)))) /\
    rents (root s) = (flat_map ents LA ++ firstn i (combine ks rs)) ++ (skipn i (combine ks rs) ++ flat_map ents LB).
  Proof.
    intros Et EL Hi Hic Hm Hf. pose proof Hb as (T & _). pose proof T as [To Tt _]. rewrite Et in Tt. destruct Tt as ([h W] & Ss & (C1 & C2 & C3)).
    assert (EE : rents (root s) = (flat_map ents LA ++ firstn i (combine ks rs)) ++ (skipn i (combine ks rs) ++ flat_map ents LB)).
    { rewrite Et. cbn. rewrite <- leaves_ents, EL, flat_map_app. cbn [flat_map ents]. rewrite <- !app_assoc. f_equal.
      rewrite app_assoc, firstn_skipn. reflexivity. }
    split; auto. rewrite <- (set_none it Hic). apply (loop_start s t it Et (leaves_ok _ _ To _ _ W (le_n 1)) C1 C2 (ltac:(intros e He; eapply ents_recs; eauto; rewrite Et; exact He)) fuel LA a nx ks rs LB i EL Hi).
    - rewrite set_none; auto.
    - rewrite EE in Hf. rewrite app_length in Hf. lia.
  Qed.

  Lemma iter_from_first ke fuel : length (rents (root s)) < fuel ->
    exists l, iter_all fuel s (bptree_iter_create None ke) = Ok (Some l) /\ lists l (at_most ke) (map snd zs).
  Proof.
    intros Hf. pose proof Hb as (T & _ & Z).
    assert (HE : SS (map fst (rents (root s)))) by (rewrite rents_keys; auto; apply rkeys_sorted; auto).
    exists (map (ev s) (filter (fun e => below ke (fst e)) (rents (root s)))). split.
    - destruct (root s) as [t|] eqn:Et.
      + pose proof T as [To Tt _]. rewrite Et in Tt. destruct Tt as ([h W] & _).
        destruct (first_leaf_ok _ _ To _ _ W (le_n 1)) as (a & nx & ks & rs & LB & E1 & E2).
        pose proof (leaves_ok _ _ To _ _ W (le_n 1)) as F. rewrite E2 in F. apply Forall_inv in F as [_ F1].
        rewrite <- Et in *.
        destruct (walk_ok t (bptree_iter_create None ke) fuel [] a nx ks rs LB 0 Et E2) as [W1 W2].
        * destruct ks; cbn; [congruence|lia].
        * reflexivity.
        * unfold iter_move, bptree_iter_create. cbn [ic istart]. rewrite Et, E1. reflexivity.
        * lia.
        * rewrite W1. do 2 f_equal. f_equal. cbn [flat_map firstn app] in W2. rewrite W2.
          rewrite (takew_sorted (A := entry) fst).
          -- apply filter_ext. intros x. unfold good, below, leb. cbn. destruct ke; auto.
          -- rewrite <- W2. exact HE.
          -- intros x y _ _ L. unfold good. cbn. apply (below_mono ke); auto.
      + apply iter_none; auto; lia.
    - eapply lists_filter with (p := below ke); eauto; [apply SS_map_filter; auto| |intros; apply below_spec].
      intros k r. rewrite filter_In. cbn. tauto.
  Qed.

  (* Iteration from a start key: everything from some point not after the start key. *)
  Lemma iter_from_start k0 ke fuel : length (rents (root s)) < fuel ->
    exists (from : list ascii -> bool) l, iter_all fuel s (bptree_iter_create (Some k0) ke) = Ok (Some l) /\
      lists l (fun k => from k = true /\ at_most ke k) (map snd zs) /\
      (forall k, str_le k0 k -> from k = true) /\
      (glookup k0 (map snd zs) <> None -> forall k, glookup k (map snd zs) <> None -> (from k = true <-> str_le k0 k)).
  Proof.
    intros Hf. pose proof Hb as (T & _ & Z).
    assert (HE : SS (map fst (rents (root s)))) by (rewrite rents_keys; auto; apply rkeys_sorted; auto).
    destruct (root s) as [t|] eqn:Et.
    2:{ exists (fun _ => true), []. split; [apply iter_none; auto; lia|]. split; [|split; auto].
        - split; [constructor|]. intros k v. rewrite (glookup_none _ _ _ _ k Z) by (cbn; tauto). cbn. intuition discriminate.
        - intros X. exfalso. apply X. apply (glookup_none _ _ _ _ k0 Z). cbn. tauto. }
    pose proof T as [To Tt _]. rewrite Et in Tt. destruct Tt as ([h W] & Ss & _).
    destruct (find_leaf_ok (order s) k0 To h 1 t W (le_n 1) Ss) as (a & nx & ks & rs & LA & LB & E & EL & L1 & L2 & G1 & G2 & G3).
    rewrite <- Et in *.
    assert (Hw : forall L, (forall l, In l L -> In l (leaves t)) -> map fst (flat_map ents L) = flat_map keys L).
    { intros L HL. pose proof (leaves_ok _ _ To _ _ W (le_n 1)) as F. rewrite Forall_forall in F.
      induction L as [|l L IH]; cbn; auto. rewrite map_app, IH by (intros; apply HL; right; auto). f_equal.
      specialize (F l (HL l (or_introl eq_refl))). destruct l; [|contradiction]. destruct F as [F _]. cbn. apply combine_fst. exact F. }
    set (i := if find_in (seq k0) ks =? length ks then 0 else find_in (seq k0) ks).
    assert (Hi : i < length ks).
    { unfold i. pose proof (find_in_le (seq k0) ks). destruct (Nat.eqb_spec (find_in (seq k0) ks) (length ks)); [destruct ks; cbn; [congruence|lia]|lia]. }
    destruct (walk_ok t (bptree_iter_create (Some k0) ke) fuel LA a nx ks rs LB i Et EL Hi) as [W1 W2]; auto.
    { unfold iter_move, bptree_iter_create. cbn [ic istart im]. rewrite Et. unfold find. rewrite E. cbn [obind]. change (kmatch EXACT k0) with (seq k0).
      unfold i. destruct (Nat.eqb_spec (find_in (seq k0) ks) (length ks)); [reflexivity|].
      destruct (get_ok rs (find_in (seq k0) ks)) as (r & -> & _); [pose proof (find_in_le (seq k0) ks); lia|]. reflexivity. }
    set (P := flat_map ents LA ++ firstn i (combine ks rs)) in *. set (Q := skipn i (combine ks rs) ++ flat_map ents LB) in *.
    assert (HP : forall x, In x (map fst P) -> slt x k0).
    { intros x Hx. unfold P in Hx. rewrite map_app in Hx. apply in_app_iff in Hx as [Hx|Hx].
      - rewrite Hw in Hx by (intros; rewrite EL; apply in_app_iff; auto). auto.
      - unfold i in Hx. destruct (Nat.eqb_spec (find_in (seq k0) ks) (length ks)); [destruct Hx|].
        assert (Hlt : find_in (seq k0) ks < length ks) by (pose proof (find_in_le (seq k0) ks); lia).
        destruct (find_in_first (seq k0) ks _ eq_refl Hlt) as (y & l2 & E1 & E2 & E3). destruct (seq_spec k0 y) as [->|]; [|discriminate].
        rewrite <- firstn_map, combine_fst in Hx by auto.
        assert (Sk : SS ks).
        { rewrite <- (leaves_keys t), EL, flat_map_app in Ss. apply SS_app in Ss as (_ & Ss & _). cbn in Ss. apply SS_app in Ss as (Ss & _ & _). exact Ss. }
        rewrite <- (firstn_skipn (find_in (seq y) ks) ks), E1 in Sk. apply SS_app in Sk as (_ & _ & Sk). apply Sk; auto. left; auto. }
    assert (HQs : SS (map fst Q)) by (rewrite W2, map_app in HE; apply SS_app in HE; tauto).
    set (from := fun k => negb (existsb (keqb k) (map fst P))).
    assert (Hfrom : forall k, from k = true <-> ~ In k (map fst P)).
    { intros k. unfold from. rewrite Bool.negb_true_iff. rewrite <- Bool.not_true_iff_false. rewrite <- mem_in. unfold mem. tauto. }
    exists from, (map (ev s) (filter (fun e => below ke (fst e)) Q)). split.
    - rewrite W1. do 2 f_equal. f_equal. rewrite (takew_sorted (A := entry) fst).
      + apply filter_ext. intros x. unfold good, below, leb. cbn. destruct ke; auto.
      + exact HQs.
      + intros x y _ _ L. unfold good. cbn. apply (below_mono ke); auto.
    - split; [|split].
      + eapply lists_filter with (p := fun k => from k && below ke k); eauto.
        * apply SS_map_filter; auto.
        * intros k r. rewrite filter_In, W2, in_app_iff, Bool.andb_true_iff, Hfrom. cbn [fst].
          rewrite W2, map_app in HE. apply SS_app in HE as (_ & _ & HE). split.
          -- intros [Hq Hk]. split; auto. split; auto. intros Hp. apply (slt_irrefl k). apply HE; auto. apply in_map_iff. exists (k, r). auto.
          -- intros ([Hp|Hq] & Hn & Hk); auto. exfalso. apply Hn. apply in_map_iff. exists (k, r). auto.
        * intros k. rewrite Bool.andb_true_iff, below_spec. tauto.
      + intros k Hk. apply Hfrom. intros Hp. apply HP in Hp. destruct Hk as [<-|Hk]; [apply (slt_irrefl _ Hp)|].
        apply str_lt_slt in Hk. apply (slt_asym _ _ Hk Hp).
      + intros Hk0 k Hk. rewrite Hfrom. split.
        * intros Hn.
          (* k0 is the first of Q *)
          assert (Hin : forall x, glookup x (map snd zs) <> None -> In x (map fst (rents (root s)))).
          { intros x Hx. destruct (in_dec (list_eq_dec ascii_dec) x (map fst (rents (root s)))); auto. exfalso. apply Hx. eapply glookup_none; eauto. }
          assert (Hk0Q : In k0 (map fst Q)).
          { specialize (Hin k0 Hk0). rewrite W2, map_app in Hin. apply in_app_iff in Hin as [X|X]; auto. apply HP in X. destruct (slt_irrefl _ X). }
          assert (HkQ : In k (map fst Q)).
          { specialize (Hin k Hk). rewrite W2, map_app in Hin. apply in_app_iff in Hin as [X|X]; auto. contradiction. }
          assert (Hhd : exists r Q', Q = (k0, r) :: Q').
          { assert (Hkk : In k0 ks).
            { unfold Q in Hk0Q. rewrite map_app in Hk0Q. apply in_app_iff in Hk0Q as [X|X].
              - assert (Y : In k0 (map fst (combine ks rs))).
                { rewrite <- (firstn_skipn i (combine ks rs)), map_app. apply in_app_iff; auto. }
                rewrite combine_fst in Y; auto.
              - rewrite Hw in X by (intros; rewrite EL; apply in_app_iff; right; right; auto). destruct (slt_irrefl _ (G3 _ X)). }
            assert (Hne : find_in (seq k0) ks <> length ks).
            { intros X. pose proof (find_in_none' _ _ X k0 Hkk) as Y. rewrite seq_refl in Y. discriminate. }
            assert (Hlt : find_in (seq k0) ks < length ks) by (pose proof (find_in_le (seq k0) ks); lia).
            destruct (find_in_first (seq k0) ks _ eq_refl Hlt) as (y & l2 & E1 & E2 & E3). destruct (seq_spec k0 y) as [->|]; [|discriminate].
            assert (Hm : map fst (skipn i (combine ks rs)) = y :: l2).
            { rewrite <- skipn_map, combine_fst by auto. unfold i. destruct (Nat.eqb_spec (find_in (seq y) ks) (length ks)); [contradiction|]. exact E1. }
            unfold Q. destruct (skipn i (combine ks rs)) as [|[x r] l]; [discriminate|]. cbn in Hm. injection Hm as -> _. exists r, (l ++ flat_map ents LB). reflexivity. }
          destruct Hhd as (r & Q' & EQ). rewrite EQ in *. cbn in HkQ, HQs. apply SS_cons in HQs as [_ HQs].
          destruct HkQ as [<-|HkQ]; [left; auto|right; apply str_lt_slt; auto].
        * intros Hle Hp. apply HP in Hp. destruct Hle as [<-|Hle]; [apply (slt_irrefl _ Hp)|].
          apply str_lt_slt in Hle. apply (slt_asym _ _ Hle Hp).
  Qed.

  Lemma iter_prefix p fuel : length (rents (root s)) < fuel ->
    exists l, iter_all fuel s (bptree_iter_create_prefix p) = Ok (Some l) /\ lists l (fun k => exists r, k = p ++ r) (map snd zs).
  Proof.
    intros Hf. pose proof Hb as (T & _ & Z).
    assert (HE : SS (map fst (rents (root s)))) by (rewrite rents_keys; auto; apply rkeys_sorted; auto).
    exists (map (ev s) (filter (fun e => is_prefix p (fst e)) (rents (root s)))). split.
    2:{ eapply lists_filter with (p := is_prefix p); eauto; [apply SS_map_filter; auto| |intros; apply is_prefix_spec].
        intros k r. rewrite filter_In. cbn. tauto. }
    destruct (root s) as [t|] eqn:Et.
    2:{ cbn. apply iter_none; auto; lia. }
    pose proof T as [To Tt _]. rewrite Et in Tt. destruct Tt as ([h W] & Ss & _).
    destruct (find_leaf_ok (order s) p To h 1 t W (le_n 1) Ss) as (a & nx & ks & rs & LA & LB & E & EL & L1 & L2 & G1 & G2 & G3).
    rewrite <- Et in *.
    assert (Hw : forall L, (forall l, In l L -> In l (leaves t)) -> map fst (flat_map ents L) = flat_map keys L).
    { intros L HL. pose proof (leaves_ok _ _ To _ _ W (le_n 1)) as F. rewrite Forall_forall in F.
      induction L as [|l L IH]; cbn; auto. rewrite map_app, IH by (intros; apply HL; right; auto). f_equal.
      specialize (F l (HL l (or_introl eq_refl))). destruct l; [|contradiction]. destruct F as [F _]. cbn. apply combine_fst. exact F. }
    set (i := if find_in (is_prefix p) ks =? length ks then 0 else find_in (is_prefix p) ks).
    assert (Hi : i < length ks).
    { unfold i. pose proof (find_in_le (is_prefix p) ks). destruct (Nat.eqb_spec (find_in (is_prefix p) ks) (length ks)); [destruct ks; cbn; [congruence|lia]|lia]. }
    destruct (walk_ok t (bptree_iter_create_prefix p) fuel LA a nx ks rs LB i Et EL Hi) as [W1 W2]; auto.
    { unfold iter_move, bptree_iter_create_prefix. cbn [ic istart im]. rewrite Et. unfold find. rewrite E. cbn [obind]. change (kmatch PREFIX p) with (is_prefix p).
      unfold i. destruct (Nat.eqb_spec (find_in (is_prefix p) ks) (length ks)); [reflexivity|].
      destruct (get_ok rs (find_in (is_prefix p) ks)) as (r & -> & _); [pose proof (find_in_le (is_prefix p) ks); lia|]. reflexivity. }
    rewrite W1. do 2 f_equal. f_equal. rewrite W2, filter_app.
    change (fun e : list ascii * N => good (bptree_iter_create_prefix p) (fst e)) with (fun e : entry => is_prefix p (fst e)).
    assert (Hlow : forall x, slt x p -> is_prefix p x = false).
    { intros x Hx. apply Bool.not_true_iff_false. intros Hp. apply is_prefix_spec in Hp as (r & ->).
      destruct (prefix_ge p r) as [Y|Y]; [rewrite <- Y in Hx; exact (slt_irrefl _ Hx)|exact (slt_asym _ _ Hx Y)]. }
    assert (FP : filter (fun e : entry => is_prefix p (fst e)) (flat_map ents LA ++ firstn i (combine ks rs)) = []).
    { assert (Hall : forall e, In e (flat_map ents LA ++ firstn i (combine ks rs)) -> is_prefix p (fst e) = false).
      { intros e He. apply in_app_iff in He as [He|He].
        - apply Hlow, G1. rewrite <- Hw by (intros; rewrite EL; apply in_app_iff; auto). apply in_map; auto.
        - unfold i in He. destruct (Nat.eqb_spec (find_in (is_prefix p) ks) (length ks)); [destruct He|].
          destruct (find_in_first (is_prefix p) ks _ eq_refl) as (y & l2 & E1 & E2 & E3); [pose proof (find_in_le (is_prefix p) ks); lia|].
          apply E3. rewrite <- (combine_fst ks rs) at 2 by auto. rewrite firstn_map. apply in_map; auto. }
      clear -Hall. match goal with |- filter _ ?L = _ => induction L as [|e l IH] end; cbn; auto.
      rewrite Hall by (left; auto). apply IH. intros; apply Hall; right; auto. }
    rewrite FP. cbn [app].
    assert (HQs : SS (map fst (skipn i (combine ks rs) ++ flat_map ents LB))) by (rewrite W2, map_app in HE; apply SS_app in HE; tauto).
    destruct (Nat.eq_dec (find_in (is_prefix p) ks) (length ks)) as [Hno|Hyes].
    - (* no key with the prefix in the leaf *)
      assert (Ei : i = 0) by (unfold i; rewrite Hno, Nat.eqb_refl; auto). rewrite Ei in *.
      change (skipn 0 (combine ks rs)) with (combine ks rs) in *.
      pose proof (find_in_none' _ _ Hno) as Hk.
      assert (Hall : forall e, In e (combine ks rs ++ flat_map ents LB) -> is_prefix p (fst e) = false).
      { intros e He. apply in_app_iff in He as [He|He].
        - apply Hk. rewrite <- (combine_fst ks rs) by auto. apply in_map; auto.
        - assert (Hek : In (fst e) (flat_map keys LB)).
          { rewrite <- Hw by (intros; rewrite EL; apply in_app_iff; right; right; auto). apply in_map; auto. }
          assert (HLB : LB <> []) by (intros ->; destruct He).
          assert (Hlast : In (last ks []) ks) by (apply last_in; auto).
          destruct (G2 HLB) as [Ep|Lp].
          + exfalso. specialize (Hk _ Hlast). rewrite <- Ep in Hk. apply Bool.not_true_iff_false in Hk. apply Hk. apply is_prefix_spec. exists []. rewrite app_nil_r. auto.
          + apply Bool.not_true_iff_false. intros Hp. apply is_prefix_spec in Hp as (r & Er).
            pose proof (above_prefix p (last ks []) r Lp (Hk _ Hlast)) as Y. rewrite <- Er in Y.
            rewrite map_app in HQs. apply SS_app in HQs as (_ & _ & HQs). apply (slt_asym _ _ Y). apply HQs.
            * rewrite combine_fst; auto.
            * apply in_map; auto. }
      clear -Hall. match goal with |- takew _ ?L = _ => destruct L as [|e l] end; cbn; auto.
      rewrite Hall by (left; auto). symmetry. induction l as [|e' l IH]; cbn; auto. rewrite Hall by (right; left; auto). apply IH.
      intros x [<-|Hx]; apply Hall; [left; auto|right; right; auto].
    - (* the first of the remaining keys has the prefix *)
      assert (Ei : i = find_in (is_prefix p) ks) by (unfold i; destruct (Nat.eqb_spec (find_in (is_prefix p) ks) (length ks)); auto; contradiction).
      destruct (find_in_first (is_prefix p) ks _ eq_refl) as (y & l2 & E1 & E2 & E3); [pose proof (find_in_le (is_prefix p) ks); lia|].
      rewrite <- Ei in *.
      assert (Hm : map fst (skipn i (combine ks rs)) = y :: l2) by (rewrite <- skipn_map, combine_fst; auto).
      apply (takew_sorted (A := entry) fst); auto.
      intros x z Hx Hz L Pz. apply Bool.not_false_iff_true. intros Px.
      assert (Hyx : y = fst x \/ slt y (fst x)).
      { destruct (skipn i (combine ks rs)) as [|[y' r] l]; [discriminate|]. cbn in Hm. injection Hm as -> _. cbn in HQs. apply SS_cons in HQs as [_ HQs].
        destruct Hx as [<-|Hx]; auto. right. apply HQs. apply in_map_iff; eauto. }
      destruct Hyx as [Ey|Hyx]; [rewrite <- Ey in Px; congruence|].
      apply is_prefix_spec in E2 as (r1 & ->). apply is_prefix_spec in Pz as (r2 & Er). rewrite Er in L.
      assert (Lp : slt p (fst x)) by (destruct (prefix_ge p r1) as [Y|Y]; [rewrite Y; auto|eapply slt_trans; eauto]).
      apply (slt_asym _ _ L). apply above_prefix; auto.
  Qed.
End Case.
