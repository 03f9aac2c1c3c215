From Verif Require Import Base Bptree_Model Bptree_Spec Bptree_Sim Bptree_Run Kvs_Model Kvs_Spec.
Local Open Scope N_scope.

(* Records without aliases: an association list. *)
Definition al := list (bytes * (N * N)).
Definition one (e : bytes * (N * N)) : grp := ([fst e], snd e).
Fixpoint alook (k : bytes) (l : al) : option (N * N) :=
  match l with [] => None | e :: t => if keqb k (fst e) then Some (snd e) else alook k t end.
Definition aput (k : bytes) (v : N * N) (l : al) : al :=
  match alook k l with
  | None => l ++ [(k, v)]
  | Some _ => map (fun e => if keqb k (fst e) then (fst e, v) else e) l
  end.
Definition adel (k : bytes) (l : al) : al := filter (fun e => negb (keqb k (fst e))) l.

Lemma glookup_one k l : glookup k (map one l) = option_map (fun v => ([k], v)) (alook k l).
Proof.
  induction l as [|[j v] l IH]; [reflexivity|]. cbn [map alook fst snd].
  rewrite glookup_cons. change (mem k (fst (one (j, v)))) with (mem k [j]). rewrite mem_one. destruct (keqb_spec k j); [subst; reflexivity|exact IH].
Qed.
Lemma gwrite_one k v l : gwrite k v (map one l) = map one (aput k v l).
Proof.
  unfold gwrite, aput. rewrite glookup_one. destruct (alook k l); cbn [option_map].
  - rewrite !map_map. apply map_ext. intros [j x]. unfold one; cbn [fst snd]. rewrite mem_one.
    destruct (keqb k j); reflexivity.
  - rewrite map_app. reflexivity.
Qed.
Lemma gdel_one k l : gdel k (map one l) = map one (adel k l).
Proof.
  unfold gdel, adel. induction l as [|[j x] l IH]; [reflexivity|]. cbn [map filter one fst snd].
  replace (strip k [j]) with (if keqb k j then [] else [j]) by (unfold strip; cbn [filter]; destruct (keqb k j); reflexivity).
  destruct (keqb k j); cbn [negb has_name fst filter map]; [exact IH|].
  rewrite IH. reflexivity.
Qed.

Lemma keqb_refl k : keqb k k = true. Proof. destruct (keqb_spec k k); congruence. Qed.
Lemma keqb_same a b : keqb a b = same a b. Proof. reflexivity. Qed.
Lemma alook_none k l : alook k l = None <-> ~ In k (map fst l).
Proof.
  induction l as [|[j x] l IH]; cbn [alook map fst In]; [split; auto|]. destruct (keqb_spec k j).
  - split; [discriminate|]. intros H. exfalso. apply H. left. congruence.
  - rewrite IH. split; intros H; [intros [E|E]; congruence || auto|auto].
Qed.
Lemma alook_app k l m : alook k (l ++ m) = match alook k l with Some v => Some v | None => alook k m end.
Proof. induction l as [|[j x] l IH]; [reflexivity|]. cbn. destruct (keqb k j); auto. Qed.
Lemma alook_map k v l j : alook j (map (fun e : bytes * (N * N) => if keqb k (fst e) then (fst e, v) else e) l) =
  if keqb k j then option_map (fun _ => v) (alook j l) else alook j l.
Proof.
  induction l as [|[i x] l IH]; [destruct (keqb k j); reflexivity|]. cbn [map alook fst snd].
  destruct (keqb_spec k i) as [Ei|Ni]; cbn [fst snd]; rewrite IH; destruct (keqb_spec j i) as [Ej|Nj], (keqb_spec k j); subst; try congruence; reflexivity.
Qed.
Lemma alook_put k v l j : alook j (aput k v l) = if keqb k j then Some v else alook j l.
Proof.
  unfold aput. destruct (alook k l) eqn:E.
  - rewrite alook_map. destruct (keqb_spec k j); [subst; rewrite E|]; reflexivity.
  - rewrite alook_app. cbn [alook fst snd]. destruct (keqb_spec k j) as [->|N].
    + rewrite E, keqb_refl. reflexivity.
    + destruct (alook j l); [reflexivity|]. destruct (keqb_spec j k); [congruence|reflexivity].
Qed.
Lemma alook_del k l j : alook j (adel k l) = if keqb k j then None else alook j l.
Proof.
  unfold adel. induction l as [|[i x] l IH]; cbn [filter fst]; [destruct (keqb k j); reflexivity|].
  destruct (keqb_spec k i) as [Ei|Ni]; cbn [negb alook fst snd]; rewrite IH; destruct (keqb_spec j i), (keqb_spec k j); subst; try congruence; reflexivity.
Qed.
Lemma put_keys k v l : map fst (aput k v l) = match alook k l with Some _ => map fst l | None => map fst l ++ [k] end.
Proof.
  unfold aput. destruct (alook k l); [|rewrite map_app; reflexivity].
  rewrite map_map. apply map_ext. intros e. destruct (keqb k (fst e)); reflexivity.
Qed.
Lemma NoDup_put k v l : NoDup (map fst l) -> NoDup (map fst (aput k v l)).
Proof.
  intros H. rewrite put_keys. destruct (alook k l) eqn:E; [exact H|]. apply alook_none in E.
  apply NoDup_Add with (a := k) (l := map fst l); [|split; assumption].
  rewrite <- (app_nil_r (map fst l)) at 1. apply Add_app.
Qed.
Lemma NoDup_del k l : NoDup (map fst l) -> NoDup (map fst (adel k l)).
Proof.
  unfold adel. induction l as [|[j x] l IH]; intros H; [constructor|]. cbn [map fst] in H. inversion H; subst.
  cbn [filter fst]. destruct (keqb k j); cbn [negb]; [auto|]. cbn [map fst]. constructor; auto.
  intros G. apply H2. clear - G. induction l as [|[i y] l IH]; [exact G|]. cbn [filter fst] in G.
  destruct (keqb k i); cbn [negb map fst] in *; [right; auto|]. destruct G; [left|right]; auto.
Qed.

(* Counting who owns a value. *)
Definition b2n (b : bool) : nat := if b then 1%nat else 0%nat.
Fixpoint cl (bw : list bytes) (l : al) (p : N) : nat :=
  match l with [] => 0%nat | e :: t => (b2n (negb (mem (fst e) bw) && (fst (snd e) =? p)%N) + cl bw t p)%nat end.
Definition here (bw : list bytes) (k : bytes) (l : al) (p : N) : nat :=
  match alook k l with Some v => b2n (negb (mem k bw) && (fst v =? p)) | None => 0%nat end.
Fixpoint cr (rbs : list rbent) (p : N) : nat :=
  match rbs with [] => 0%nat | e :: t => (b2n (negb (rhas e) && negb (p =? 0)%N && (rval e =? p)%N) + cr t p)%nat end.

Lemma cl_app bw l m p : cl bw (l ++ m) p = (cl bw l p + cl bw m p)%nat.
Proof. induction l; cbn; lia. Qed.
Lemma cr_app l m p : cr (l ++ m) p = (cr l p + cr m p)%nat.
Proof. induction l; cbn; lia. Qed.
Lemma map_id_off k v l : ~ In k (map fst l) -> map (fun e : bytes * (N * N) => if keqb k (fst e) then (fst e, v) else e) l = l.
Proof.
  induction l as [|[j x] l IH]; intros H; [reflexivity|]. cbn [map fst In] in *.
  destruct (keqb_spec k j); [exfalso; apply H; left; congruence|]. rewrite IH; auto.
Qed.
Lemma del_off k l : ~ In k (map fst l) -> adel k l = l.
Proof.
  unfold adel. induction l as [|[j x] l IH]; intros H; [reflexivity|]. cbn [filter map fst In] in *.
  destruct (keqb_spec k j); [exfalso; apply H; left; congruence|]. cbn [negb]. rewrite IH; auto.
Qed.
Lemma cl_put bw k v l p : NoDup (map fst l) ->
  (cl bw (aput k v l) p + here bw k l p = cl bw l p + b2n (negb (mem k bw) && (fst v =? p)%N))%nat.
Proof.
  intros H. unfold aput, here. destruct (alook k l) as [w|] eqn:E; [|rewrite cl_app; cbn [cl fst snd]; lia].
  revert w E. induction l as [|[j x] l IH]; intros w E; [discriminate|]. cbn [map fst] in H. inversion H; subst. cbn [map cl fst snd alook] in *.
  destruct (keqb_spec k j) as [Ej|N]; cbn [fst snd].
  - injection E as <-. subst j. rewrite map_id_off by assumption. lia.
  - specialize (IH H3 w E). lia.
Qed.
Lemma cl_del bw k l p : NoDup (map fst l) -> (cl bw (adel k l) p + here bw k l p = cl bw l p)%nat.
Proof.
  intros H. unfold here. induction l as [|[j x] l IH]; [reflexivity|]. cbn [map fst] in H. inversion H; subst.
  cbn [alook fst snd]. unfold adel in *. cbn [filter fst cl]. destruct (keqb_spec k j) as [<-|N]; cbn [negb fst snd].
  - fold (adel k l). rewrite del_off by assumption. cbn [fst snd]. lia.
  - cbn [cl fst snd]. specialize (IH H3). lia.
Qed.
Lemma here_le bw k l p : (here bw k l p <= cl bw l p)%nat.
Proof.
  unfold here. induction l as [|[j x] l IH]; cbn [alook cl fst snd]; [lia|].
  destruct (keqb_spec k j) as [<-|N]; [lia|]. lia.
Qed.
Lemma here_two bw j k l p : j <> k -> (here bw j l p + here bw k l p <= cl bw l p)%nat.
Proof.
  intros D. unfold here. induction l as [|[i x] l IH]; cbn [alook cl fst snd]; [lia|].
  pose proof (here_le bw j l p) as A. pose proof (here_le bw k l p) as C. unfold here in A, C.
  destruct (keqb_spec j i), (keqb_spec k i); subst; try congruence; lia.
Qed.
Lemma cl_borrow bw k l p : NoDup (map fst l) -> mem k bw = false ->
  (cl (k :: bw) l p + here bw k l p = cl bw l p)%nat.
Proof.
  intros H Hk. unfold here. induction l as [|[j x] l IH]; [reflexivity|]. cbn [map fst] in H. inversion H; subst.
  cbn [alook cl fst snd]. specialize (IH H3). unfold mem at 1. cbn [existsb]. fold (mem j bw).
  destruct (keqb_spec k j) as [<-|N].
  - rewrite keqb_refl, Hk. cbn [orb negb andb b2n].
    assert (E : alook k l = None) by (apply alook_none; assumption). rewrite E in IH. lia.
  - destruct (keqb_spec j k); [congruence|]. cbn [orb]. lia.
Qed.

(* The heap *)
Definition cont (h : list obj) (p : N) : option content := match hobj h p with Some (c, true) => Some c | _ => None end.
Definition isS {A} (o : option A) : bool := match o with Some _ => true | None => false end.
Lemma cont_0 h : cont h 0 = None. Proof. reflexivity. Qed.
Lemma cont_lt h p c : cont h p = Some c -> 0 < p /\ p <= N.of_nat (length h).
Proof.
  unfold cont, hobj. destruct (N.eqb_spec p 0); [discriminate|]. destruct (nth_error h (N.to_nat p - 1)) as [[d [|]]|] eqn:E; try discriminate.
  intros _. assert (N.to_nat p - 1 < length h)%nat by (apply nth_error_Some; congruence). lia.
Qed.
Lemma cont_put h p c b c0 : cont h p = Some c0 ->
  forall q, cont (hput h p (c, b)) q = if q =? p then (if b then Some c else None) else cont h q.
Proof.
  intros H q. assert (L := cont_lt _ _ _ H). unfold cont, hobj, hput. rewrite nth_error_list_set.
  destruct (N.eqb_spec q 0); [destruct (N.eqb_spec q p); [lia|reflexivity]|].
  destruct (N.eqb_spec q p) as [->|Nq].
  - rewrite Nat.eqb_refl. destruct (Nat.ltb_spec (N.to_nat p - 1) (length h)); [|lia]. destruct b; reflexivity.
  - destruct (Nat.eqb_spec (N.to_nat p - 1) (N.to_nat q - 1)); [lia|]. reflexivity.
Qed.
Lemma hput_len h p o : length (hput h p o) = length h.
Proof. apply list_set_length. Qed.
Lemma hfree_ok h p c : cont h p = Some c ->
  exists h', hfree h p = Ok h' /\ (forall q, cont h' q = if q =? p then None else cont h q) /\ length h' = length h.
Proof.
  intros H. unfold hfree. assert (L := cont_lt _ _ _ H). destruct (N.eqb_spec p 0); [lia|].
  pose proof H as H'. unfold cont in H'. destruct (hobj h p) as [[d [|]]|]; try discriminate.
  eexists. split; [reflexivity|]. split; [intros q; rewrite (cont_put _ _ _ _ _ H); reflexivity|apply hput_len].
Qed.
Lemma halloc_ok h c : forall q, cont (h ++ [(c, true)]) q = if q =? N.of_nat (length h) + 1 then Some c else cont h q.
Proof.
  intros q. unfold cont, hobj. destruct (N.eqb_spec q 0); [destruct (N.eqb_spec q (N.of_nat (length h) + 1)); [lia|reflexivity]|].
  destruct (N.eqb_spec q (N.of_nat (length h) + 1)) as [->|Nq].
  - rewrite nth_error_app2 by lia. replace (_ - _ - _)%nat with 0%nat by lia. reflexivity.
  - destruct (Nat.ltb_spec (N.to_nat q - 1) (length h)).
    + rewrite nth_error_app1 by lia. reflexivity.
    + rewrite nth_error_app2 by lia. rewrite (proj2 (nth_error_None h (N.to_nat q - 1))) by lia.
      destruct (N.to_nat q - 1 - length h)%nat as [|m] eqn:E; [lia|]. destruct m; reflexivity.
Qed.
Lemma cont_fresh h : cont h (N.of_nat (length h) + 1) = None.
Proof. destruct (cont h _) eqn:E; [apply cont_lt in E; lia|reflexivity]. Qed.
Lemma hread_ok h p c : cont h p = Some c -> hread h p = Ok c.
Proof. unfold cont, hread. destruct (hobj h p) as [[d [|]]|]; congruence. Qed.
Lemma content_of_ok h p : p = 0 \/ cont h p <> None -> content_of h p = Ok (cont h p).
Proof.
  unfold content_of. intros [->|H]; [reflexivity|]. destruct (cont h p) as [c|] eqn:E; [|congruence].
  destruct (N.eqb_spec p 0); [subst; discriminate|]. rewrite (hread_ok _ _ _ E). reflexivity.
Qed.

(* Every live value has exactly one owner: a key (unless its value is set aside), a rollback entry, or the value in hand. *)
Definition INV (l : al) (h : list obj) (rbs : list rbent) (bw : list bytes) (hand : N) : Prop :=
  NoDup (map fst l) /\
  forall p, (cl bw l p + cr rbs p + b2n (negb (p =? 0)%N && (hand =? p)%N) = b2n (isS (cont h p)))%nat.

Definition V (l : al) (h : list obj) : cmap := fun k => match alook k l with Some v => cont h (fst v) | None => None end.
Definition oldv (k : bytes) (l : al) : N * N := match alook k l with Some v => v | None => (0, 0) end.

Lemma b2n_le b : (b2n b <= 1)%nat. Proof. destruct b; cbn; lia. Qed.
Lemma inv_alive l h rbs bw hand k v : INV l h rbs bw hand -> alook k l = Some v -> mem k bw = false -> cont h (fst v) <> None.
Proof.
  intros [_ H] E M C. specialize (H (fst v)). rewrite C in H. cbn [isS b2n] in H.
  pose proof (here_le bw k l (fst v)) as G. unfold here in G. rewrite E, M, N.eqb_refl in G. cbn in G. lia.
Qed.
Lemma inv_diff l h rbs bw hand j k v w : INV l h rbs bw hand -> alook j l = Some v -> alook k l = Some w ->
  mem j bw = false -> mem k bw = false -> j <> k -> fst v <> fst w.
Proof.
  intros [_ H] E F M M' D C. specialize (H (fst v)). pose proof (here_two bw j k l (fst v) D) as G. unfold here in G.
  rewrite E, F, M, M', <- C, N.eqb_refl in G. cbn in G. pose proof (b2n_le (isS (cont h (fst v)))). lia.
Qed.
Lemma inv_hand l h rbs bw hand k v : INV l h rbs bw hand -> alook k l = Some v -> mem k bw = false -> fst v <> hand.
Proof.
  intros I E M C. assert (A := inv_alive _ _ _ _ _ _ _ I E M). destruct I as [_ H]. specialize (H (fst v)).
  pose proof (here_le bw k l (fst v)) as G. unfold here in G. rewrite E, M, N.eqb_refl in G. cbn in G.
  rewrite C, N.eqb_refl in *. destruct (N.eqb_spec hand 0) as [->|]; [apply A; reflexivity|]. cbn [negb andb b2n] in H.
  pose proof (b2n_le (isS (cont h hand))). lia.
Qed.
Lemma inv_old0 l h rbs bw hand k : INV l h rbs bw hand -> mem k bw = false -> (fst (oldv k l) = 0 <-> alook k l = None).
Proof.
  intros I M. unfold oldv. destruct (alook k l) as [v|] eqn:E; [|split; reflexivity]. split; [|discriminate].
  intros Z. exfalso. apply (inv_alive _ _ _ _ _ _ _ I E M). rewrite Z. reflexivity.
Qed.
Lemma V_old l h k : V l h k = cont h (fst (oldv k l)).
Proof. unfold V, oldv. destruct (alook k l); reflexivity. Qed.
Lemma here_old l h rbs bw hand k p : INV l h rbs bw hand -> mem k bw = false ->
  here bw k l p = b2n (negb (p =? 0) && (fst (oldv k l) =? p)).
Proof.
  intros I M. unfold here, oldv. destruct (alook k l) as [v|] eqn:E.
  - rewrite M. cbn [negb andb]. assert (A := inv_alive _ _ _ _ _ _ _ I E M).
    destruct (N.eqb_spec p 0) as [->|]; [|reflexivity]. destruct (N.eqb_spec (fst v) 0) as [e|]; [rewrite e in A; exfalso; apply A; reflexivity|reflexivity].
  - cbn [fst]. destruct (N.eqb_spec p 0), (N.eqb_spec 0 p); cbn; try reflexivity; lia.
Qed.
Lemma found_one k (l : al) : found (option_map out (glookup k (map one l))) = (fst (oldv k l), snd (oldv k l), match alook k l with Some _ => 1 | None => 0 end).
Proof. rewrite glookup_one. unfold oldv. destruct (alook k l); reflexivity. Qed.

Notation skv := (kv spec_backend).
Notation sset_value := (set_value spec_backend).
Notation sset := (sid_kvs_set spec_backend).
Notation sunset := (sid_kvs_unset spec_backend).
Notation sunset_value := (unset_value spec_backend).

Lemma made_as c m : made_content c m = as_stored c m.
Proof. unfold made_content, as_stored. destruct (cvec c), (cref c) eqn:E, m; cbn; rewrite ?E; reflexivity. Qed.

Lemma run_setcb_ok h fn old nw nsz nc :
  cont h nw = Some nc -> (old = 0 \/ cont h old <> None) ->
  exists r h' nw' nsz' c', run_setcb h fn old nw nsz = Ok (r, h', nw', nsz') /\
    (forall q, cont h' q = if q =? nw' then Some c' else if q =? nw then None else cont h q) /\
    (nw' = nw \/ (cont h nw' = None /\ N.of_nat (length h) < nw')) /\
    accepted fn (cont h old) nc = (if (r =? 0)%Z then None else Some c') /\
    (length h <= length h')%nat /\ (fn = None -> nw' = nw /\ nsz' = nsz).
Proof.
  intros Hn Ho. unfold run_setcb, accepted. destruct fn as [fn|].
  2:{ exists 1%Z, h, nw, nsz, nc. repeat split; auto. intros q. destruct (N.eqb_spec q nw); [subst; exact Hn|reflexivity]. }
  rewrite (content_of_ok _ _ Ho), (hread_ok _ _ _ Hn). cbn [obind]. destruct (fn (cont h old) nc) as [[r c'] op] eqn:E.
  destruct (Z.ltb_spec 0 r) as [R|R]; cbn [andb].
  2:{ exists r, h, nw, nsz, nc. split; [reflexivity|]. split; [intros q; destruct (N.eqb_spec q nw); [subst; exact Hn|reflexivity]|].
      split; [auto|]. split; [reflexivity|]. split; [auto|discriminate]. }
  destruct (content_eq_dec c' nc) as [->|D]; cbn [negb]; rewrite ?orb_true_r, ?orb_false_r.
  - destruct op.
    + rewrite !andb_false_r. cbn [andb negb]. unfold halloc.
      assert (A : cont (h ++ [(made_content nc true, true)]) nw = Some nc).
      { rewrite halloc_ok. destruct (N.eqb_spec nw (N.of_nat (length h) + 1)) as [e|]; [|exact Hn]. rewrite e in Hn. rewrite cont_fresh in Hn. discriminate. }
      destruct (hfree_ok _ _ _ A) as (h' & F & C & L).
      replace (cref nc && (csize nc =? csize nc) && false && Bool.eqb (cvec nc) (cvec nc) && Bool.eqb (cref nc) (cref nc) && Bool.eqb (cauto nc) (cauto nc)) with false
        by (rewrite andb_false_r; reflexivity).
      rewrite F. cbn [obind]. exists r, h', (N.of_nat (length h) + 1), (vsize nc true), (as_stored nc true).
      split; [reflexivity|]. split.
      { intros q. rewrite C, halloc_ok, <- made_as. destruct (N.eqb_spec q nw) as [->|]; [|reflexivity].
        destruct (N.eqb_spec nw (N.of_nat (length h) + 1)) as [e|]; [|reflexivity]. rewrite e in Hn. rewrite cont_fresh in Hn. discriminate. }
      split; [right; split; [apply cont_fresh|lia]|]. split; [destruct (Z.eqb_spec r 0); [lia|reflexivity]|].
      split; [rewrite L, app_length; cbn; lia|discriminate].
    + exists r, h, nw, nsz, nc. split; [reflexivity|]. split; [intros q; destruct (N.eqb_spec q nw); [subst; exact Hn|reflexivity]|].
      split; [auto|]. split; [|split; [auto|discriminate]]. destruct (Z.eqb_spec r 0); [lia|].
      unfold as_stored. destruct (cvec nc), (cref nc); reflexivity.
  - destruct (cref c' && (csize c' =? csize nc) && negb op && Bool.eqb (cvec c') (cvec nc) && Bool.eqb (cref c') (cref nc) && Bool.eqb (cauto c') (cauto nc)) eqn:P.
    + exists r, (hput h nw (c', true)), nw, nsz, c'. split; [reflexivity|].
      split; [intros q; rewrite (cont_put _ _ _ _ _ Hn); destruct (q =? nw); reflexivity|].
      split; [auto|]. split; [|split; [rewrite hput_len; lia|discriminate]]. destruct (Z.eqb_spec r 0); [lia|].
      destruct (cref c') eqn:R1; [|discriminate P]. unfold as_stored. rewrite R1. destruct (cvec c'); reflexivity.
    + unfold halloc. assert (A : cont (h ++ [(made_content c' op, true)]) nw = Some nc).
      { rewrite halloc_ok. destruct (N.eqb_spec nw (N.of_nat (length h) + 1)) as [e|]; [|exact Hn]. rewrite e in Hn. rewrite cont_fresh in Hn. discriminate. }
      destruct (hfree_ok _ _ _ A) as (h' & F & C & L). rewrite F. cbn [obind].
      exists r, h', (N.of_nat (length h) + 1), (vsize c' op), (as_stored c' op). split; [reflexivity|]. split.
      { intros q. rewrite C, halloc_ok, <- made_as. destruct (N.eqb_spec q nw) as [->|]; [|reflexivity].
        destruct (N.eqb_spec nw (N.of_nat (length h) + 1)) as [e|]; [|reflexivity]. rewrite e in Hn. rewrite cont_fresh in Hn. discriminate. }
      split; [right; split; [apply cont_fresh|lia]|]. split; [destruct (Z.eqb_spec r 0); [lia|reflexivity]|].
      split; [rewrite L, app_length; cbn; lia|discriminate].
Qed.

Definition ent k (v : N * N) has is := {| rkey := k; rval := fst v; rvsize := snd v; rhas := has; ris := is |}.

Lemma set_value_ok (s : skv) l rbs bw k nw nsz fn has is nc :
  bk s = map one l -> INV l (heap s) rbs bw nw -> cont (heap s) nw = Some nc -> mem k bw = false ->
  rb s = None \/ rb s = Some rbs ->
  exists s' nw' x, sset_value s k nw nsz fn has is = Ok (s', nw', x) /\ ub s' = ub s /\
    (length (heap s) <= length (heap s'))%nat /\
    match accepted fn (V l (heap s) k) nc with
    | None => bk s' = map one l /\ rb s' = rb s /\ INV l (heap s') rbs bw 0 /\ x = (0, 0) /\
              forall q, q <> nw -> cont (heap s) q <> None -> cont (heap s') q = cont (heap s) q
    | Some c' => exists sz', bk s' = map one (aput k (nw', sz') l) /\
              let rbs' := match rb s with Some _ => rbs ++ [ent k (oldv k l) has is] | None => rbs end in
              rb s' = match rb s with Some _ => Some rbs' | None => None end /\
              x = (if has then oldv k l else (0, 0)) /\
              INV (aput k (nw', sz') l) (heap s') rbs' bw (fst x) /\
              cont (heap s') nw' = Some c' /\
              (forall q, q <> nw -> cont (heap s) q <> None -> (rb s = None -> has = false -> q <> fst (oldv k l)) ->
                         cont (heap s') q = cont (heap s) q) /\
              (nw' = nw \/ N.of_nat (length (heap s)) < nw') /\ (fn = None -> nw' = nw /\ sz' = nsz)
    end.
Proof.
  intros Hb I Hn Mk Hr. unfold set_value. cbn [blook bupd spec_backend]. rewrite Hb. cbn [obind].
  rewrite found_one.
  assert (Ho : fst (oldv k l) = 0 \/ cont (heap s) (fst (oldv k l)) <> None).
  { unfold oldv. destruct (alook k l) as [v|] eqn:E; [right; eapply inv_alive; eauto|left; reflexivity]. }
  assert (On : fst (oldv k l) <> nw).
  { unfold oldv. destruct (alook k l) as [v|] eqn:E; [eapply inv_hand; eauto|]. intros C. cbn in C. rewrite <- C in Hn. discriminate. }
  destruct (run_setcb_ok (heap s) fn (fst (oldv k l)) nw nsz nc Hn Ho) as (r & h1 & nw' & nsz' & c' & R & C1 & D & A & L1 & FN).
  rewrite R. cbn [obind]. rewrite V_old, A.
  assert (N0 : nw <> 0) by (intros e; rewrite e in Hn; discriminate).
  assert (N0' : nw' <> 0) by (destruct D as [->|[_ ?]]; [assumption|lia]).
  assert (Cn : cont h1 nw' = Some c') by (rewrite C1, N.eqb_refl; reflexivity).
  destruct I as [ND Cnt].
  destruct (r =? 0)%Z eqn:R0.
  - destruct (hfree_ok _ _ _ Cn) as (h2 & F & C2 & L2). rewrite F. cbn [obind].
    eexists _, _, _. split; [reflexivity|]. cbn [gstep fst with_bk with_heap bk heap rb ub]. split; [reflexivity|]. split; [lia|].
    split; [reflexivity|]. split; [reflexivity|]. split; [|split; [reflexivity|]].
    + split; [exact ND|]. intros p. specialize (Cnt p). rewrite C2, C1.
      destruct (N.eqb_spec p nw') as [->|Np].
      * cbn [isS b2n]. destruct D as [->|[D _]].
        -- rewrite Hn, N.eqb_refl in Cnt. destruct (N.eqb_spec nw 0); [lia|]. cbn [negb andb b2n isS] in Cnt.
           destruct (N.eqb_spec 0 nw); [lia|]. cbn [negb andb b2n]. lia.
        -- rewrite D in Cnt. cbn [isS b2n] in Cnt. destruct (N.eqb_spec 0 nw'); [lia|]. rewrite andb_false_r. cbn [b2n]. lia.
      * destruct (N.eqb_spec p nw) as [->|Nq].
        -- rewrite Hn, N.eqb_refl in Cnt. destruct (N.eqb_spec nw 0); [lia|]. cbn [negb andb b2n isS] in Cnt.
           destruct (N.eqb_spec 0 nw); [lia|]. cbn [negb andb b2n isS]. lia.
        -- destruct (N.eqb_spec nw p); [lia|]. rewrite andb_false_r in Cnt. cbn [b2n] in Cnt.
           destruct (N.eqb_spec p 0), (N.eqb_spec 0 p); cbn [negb andb b2n]; lia.
    + intros q Q1 Q2. rewrite C2, C1. destruct (N.eqb_spec q nw') as [->|Nq].
      * destruct D as [->|[D _]]; congruence.
      * destruct (N.eqb_spec q nw); [lia|reflexivity].
  - assert (G : forall (s1 : skv) h2 rbs', ub s1 = ub s -> bk s1 = map one l -> heap s1 = h2 -> rb s1 = match rb s with Some _ => Some rbs' | None => None end ->
        rbs' = match rb s with Some _ => rbs ++ [ent k (oldv k l) has is] | None => rbs end ->
        (length h1 <= length h2)%nat ->
        (forall q, cont h2 q = if (match rb s with None => negb has | _ => false end) && (q =? fst (oldv k l)) then None else cont h1 q) ->
        exists (s' : skv) nw'' x,
          (let! b := Ok (fst (gstep (bk s1) (BUpdate k (fun _ => (BWRITE, (nw', nsz')))))) in Ok (with_bk spec_backend s1 b, nw', if has then (fst (oldv k l), snd (oldv k l)) else (0, 0))) = Ok (s', nw'', x) /\
          ub s' = ub s /\ (length (heap s) <= length (heap s'))%nat /\
          exists sz', bk s' = map one (aput k (nw'', sz') l) /\
              let rbs' := match rb s with Some _ => rbs ++ [ent k (oldv k l) has is] | None => rbs end in
              rb s' = match rb s with Some _ => Some rbs' | None => None end /\
              x = (if has then oldv k l else (0, 0)) /\
              INV (aput k (nw'', sz') l) (heap s') rbs' bw (fst x) /\
              cont (heap s') nw'' = Some c' /\
              (forall q, q <> nw -> cont (heap s) q <> None -> (rb s = None -> has = false -> q <> fst (oldv k l)) ->
                         cont (heap s') q = cont (heap s) q) /\
              (nw'' = nw \/ N.of_nat (length (heap s)) < nw'') /\ (fn = None -> nw'' = nw /\ sz' = nsz)).
    { intros s1 h2 rbs' E1 E2 E3 E4 E5 L2 C2. cbn [obind]. eexists _, _, _. split; [reflexivity|].
      cbn [with_bk bk heap rb ub]. split; [exact E1|]. rewrite E3. split; [lia|]. exists nsz'. split.
      { unfold gstep. cbn [fst]. rewrite E2. apply gwrite_one. }
      cbn zeta. rewrite <- E5. split; [exact E4|]. split; [destruct has; [destruct (oldv k l)|]; reflexivity|].
      assert (Nold : nw' <> fst (oldv k l)).
      { destruct D as [->|[D _]]; [auto|]. intros e. rewrite e in D. destruct Ho as [z|]; [rewrite e in N0'; lia|congruence]. }
      split; [|split; [|split; [|split; [destruct D as [->|[_ ?]]; auto|exact FN]]]].
      - split; [apply NoDup_put; exact ND|]. intros p. pose proof Cnt as Cnt0. specialize (Cnt p).
        pose proof (cl_put bw k (nw', nsz') l p ND) as P. cbn [fst] in P. rewrite Mk in P. cbn [negb andb] in P.
        pose proof (here_old _ _ _ _ _ k p (conj ND Cnt0) Mk) as Hh.
        rewrite Hh in P.
        assert (Rb : (cr rbs' p + b2n (negb (p =? 0)%N && (fst (if has then (fst (oldv k l), snd (oldv k l)) else (0, 0)%N) =? p)%N) +
                      b2n (negb (p =? 0)%N && (match rb s with None => negb has | _ => false end && (fst (oldv k l) =? p)%N))
                      = cr rbs p + b2n (negb (p =? 0)%N && (fst (oldv k l) =? p)%N))%nat).
        { rewrite E5. destruct (rb s), has; rewrite ?cr_app; cbn [cr ent rhas rval fst snd negb andb b2n];
            destruct (N.eqb_spec p 0), (N.eqb_spec 0 p); cbn [negb andb b2n]; try lia. }
        rewrite C2, C1. destruct (N.eqb_spec p 0) as [Ep|Np]; [rewrite Ep in *|].
        + cbn [negb andb b2n] in *. destruct (N.eqb_spec 0 nw'); [lia|]. destruct (N.eqb_spec nw' 0); [lia|]. destruct (N.eqb_spec 0 nw); [lia|].
          rewrite cont_0 in Cnt. cbn [isS b2n] in *. rewrite cont_0. destruct (_ && _); cbn [isS b2n]; lia.
        + cbn [negb andb] in *. rewrite (N.eqb_sym p (fst (oldv k l))), (N.eqb_sym p nw'), (N.eqb_sym p nw).
          destruct (N.eqb_spec nw' p) as [e|Ne].
          * destruct (N.eqb_spec (fst (oldv k l)) p); [congruence|]. rewrite andb_false_r in *. cbn [isS b2n] in *.
            destruct D as [D|[D _]].
            -- rewrite D in e. rewrite e, N.eqb_refl in Cnt. rewrite e in Hn. rewrite Hn in Cnt. cbn [isS b2n] in Cnt. lia.
            -- rewrite e in D. rewrite D in Cnt. cbn [isS b2n] in Cnt. lia.
          * destruct (N.eqb_spec nw p) as [e2|Ne2].
            -- destruct (N.eqb_spec (fst (oldv k l)) p); [congruence|]. rewrite andb_false_r in *. cbn [isS b2n] in *.
               rewrite e2 in Hn. rewrite Hn in Cnt. cbn [isS b2n] in Cnt. lia.
            -- destruct (N.eqb_spec (fst (oldv k l)) p) as [e3|Ne3]; [|rewrite andb_false_r in *; cbn [isS b2n] in *; lia].
               rewrite andb_true_r in *. destruct Ho as [z|z]; [congruence|]. rewrite e3 in z.
               destruct (cont (heap s) p) eqn:Ec; [|congruence]. cbn [isS b2n] in *.
               destruct (match rb s with None => negb has | _ => false end); cbn [isS b2n] in *; lia.
      - rewrite C2. destruct (N.eqb_spec nw' (fst (oldv k l))); [lia|]. rewrite andb_false_r. exact Cn.
      - intros q Q1 Q2 Q3. rewrite C2, C1. destruct (N.eqb_spec q (fst (oldv k l))) as [e|].
        + destruct (rb s); [|destruct has]; cbn [negb andb];
            try (exfalso; apply (Q3 eq_refl eq_refl); exact e);
            (destruct (N.eqb_spec q nw'); [congruence|]; destruct (N.eqb_spec q nw); [lia|reflexivity]).
        + rewrite andb_false_r. destruct (N.eqb_spec q nw') as [e|]; [|destruct (N.eqb_spec q nw); [lia|reflexivity]].
          destruct D as [D|[D _]]; congruence. }
    destruct Hr as [Hr|Hr]; rewrite Hr in *.
    + cbn [with_heap rb]. rewrite Hr. destruct has.
      * cbn [obind]. eapply (G (with_heap spec_backend s h1) h1 rbs); cbn [with_heap bk rb ub heap]; auto.
      * destruct Ho as [z|z].
        -- assert (F : hfree h1 (fst (oldv k l)) = Ok h1) by (rewrite z; reflexivity). rewrite F. cbn [obind].
           eapply (G (with_heap spec_backend (with_heap spec_backend s h1) h1) h1 rbs); cbn [with_heap bk rb ub heap]; auto.
           intros q. rewrite z. destruct (N.eqb_spec q 0) as [->|]; reflexivity.
        -- assert (Co : cont h1 (fst (oldv k l)) = cont (heap s) (fst (oldv k l))).
           { rewrite C1. destruct (N.eqb_spec (fst (oldv k l)) nw') as [e|]; [destruct D as [D|[D _]]; congruence|].
             destruct (N.eqb_spec (fst (oldv k l)) nw); [congruence|reflexivity]. }
           destruct (cont (heap s) (fst (oldv k l))) as [oc|]; [|congruence].
           destruct (hfree_ok _ _ _ Co) as (h2 & F & C2 & L2). rewrite F. cbn [obind].
           eapply (G (with_heap spec_backend (with_heap spec_backend s h1) h2) h2 rbs); cbn [with_heap bk rb ub heap]; auto. lia.
    + cbn [with_heap rb]. rewrite Hr. cbn [obind].
      eapply (G (with_rb spec_backend (with_heap spec_backend s h1) (Some (rbs ++ [ent k (oldv k l) has is]))) h1 (rbs ++ [ent k (oldv k l) has is]));
        cbn [with_heap with_rb bk rb ub heap]; auto.
Qed.
