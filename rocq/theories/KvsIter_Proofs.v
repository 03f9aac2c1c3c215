(* Iterators of the key-value store: proofs. *)
From Verif Require Import Base Hash_Model Hash_Spec Hash_Proofs Bptree_Model Bptree_Spec Bptree_Proofs Bptree_Api Bptree_Sim Bptree_Run Bptree_Iter Bptree_Final
  Kvs_Model Kvs_Spec Kvs_Proofs Kvs_Trans
  Kvs_Commit Kvs_Rollback Kvs_Backend Kvs_All KvsIter_Model KvsIter_Spec.
Local Open Scope N_scope.

Lemma krun_app' BE a : forall b s, krun BE s (a ++ b) = let! (s1, r1) := krun BE s a in let! (s2, r2) := krun BE s1 b in Ok (s2, r1 ++ r2).
Proof.
  induction a as [|o a IH]; intros b s; cbn [app krun obind].
  - destruct (krun BE s b) as [[s2 r2]|]; reflexivity.
  - destruct (kstep BE s o) as [[s1 r1]|]; cbn [obind]; [|reflexivity]. rewrite IH. destruct (krun BE s1 a) as [[s2 r2]|]; cbn [obind]; [|reflexivity].
    destruct (krun BE s2 b) as [[s3 r3]|]; reflexivity.
Qed.

(* What an overwriting set does to the backend *)
Lemma set_upd BE (s s1 : kv BE) k c mg r : k <> [] -> kstep BE s (KSet k c mg None None) = Ok (s1, r) ->
  exists v, bupd BE (bk s) (canonicalize_key k) (BWRITE, v) = Ok (bk s1).
Proof.
  intros N. cbn [kstep]. unfold sid_kvs_set. destruct k as [|k0 kt]; [congruence|]. destruct (halloc _ _) as [h nw].
  unfold set_value. cbn [bk heap with_heap run_setcb obind]. destruct (blook BE (bk s) _) as [l|]; cbn [obind]; [|discriminate].
  destruct (found l) as [[old osz] refs]. cbn [obind]. change (1 =? 0)%Z with false. cbn iota.
  destruct (rb (with_heap BE (with_heap BE s h) h)) as [q|]; cbn [obind].
  - cbn [bk with_rb with_heap]. destruct (bupd BE _ _ _) as [b|] eqn:E; cbn [obind]; [|discriminate]. intros X. injection X as <- _. eauto.
  - destruct (hfree h old) as [h2|]; cbn [obind]; [|discriminate]. cbn [bk with_heap].
    destruct (bupd BE _ _ _) as [b|] eqn:E; cbn [obind]; [|discriminate]. intros X. injection X as <- _. eauto.
Qed.

Definition domeq (m m' : cmap) : Prop := forall k, m k = None <-> m' k = None.
Lemma overwrites_dom m m' o : domeq m m' -> overwrites m o -> overwrites m' o.
Proof. intros D. destruct o as [k c mg [a|] [fn|]| | | | | |]; cbn; auto. intros (H1 & H2 & H3). repeat split; auto. intros X. apply H2. apply D. exact X. Qed.
Lemma over_step m o : overwrites m o -> domeq m (plain_step m o).
Proof.
  intros H k. destruct o as [k0 c mg [a|] [fn|]| | | | | |]; cbn [overwrites] in H; try contradiction; [|reflexivity]. destruct H as (H1 & H2 & _).
  destruct k0 as [|x k0]; [congruence|]. cbn [plain_step accepted archive]. unfold mset. destruct (same_spec (canonicalize_key (x :: k0)) k) as [<-|]; [|reflexivity].
  split; [intros X; contradiction|discriminate].
Qed.
Lemma null_solid c : null_ref c = false <-> ~ (cref c = true /\ cvec c = false /\ citems c = []).
Proof. unfold null_ref. destruct (cref c), (cvec c), (citems c); cbn; split; intros; try reflexivity; try discriminate; try (intros (? & ? & ?); discriminate). exfalso. apply H. auto. Qed.
Lemma solid_step m o : overwrites m o -> solid m -> solid (plain_step m o).
Proof.
  intros H S. destruct o as [k0 c mg [a|] [fn|]| | | | | |]; cbn [overwrites] in H; try contradiction; [|exact S]. destruct H as (H1 & _ & H3).
  destruct k0 as [|x k0]; [congruence|]. cbn [plain_step accepted archive]. intros k c'. unfold mset. destruct (same _ k); [|apply S].
  intros E. injection E as <-. unfold as_stored. destruct (cvec c) eqn:E1, (cref c) eqn:E2, mg; cbn; rewrite ?E1, ?E2; try (intros (? & ? & ?); discriminate); exact H3.
Qed.

Section Generic.
  Variable BE : backend.
  Variable R : bst BE -> list grp -> Prop.
  Hypothesis look_ok : forall b gs k, R b gs -> blook BE b k = Ok (option_map out (glookup k gs)).
  Hypothesis upd_ok : forall b gs k a, R b gs -> (fst a = BWRITE -> fst (snd a) <> 0) ->
    exists b', bupd BE b k a = Ok b' /\ R b' (fst (gstep gs (BUpdate k (fun _ => a)))).
  Context {Sh I : Type} (shape : bst BE -> Sh).
  Hypothesis shape_upd : forall b gs k v b', R b gs -> glookup k gs <> None -> bupd BE b k (BWRITE, v) = Ok b' -> shape b' = shape b.
  Variable pos : Sh -> I -> outcome (I * option bytes).
  Variable next : kv BE -> I -> outcome (I * (option bytes * option content)).
  Hypothesis next_ok : forall s gs it it' ok, R (bk s) gs -> pos (shape (bk s)) it = Ok (it', ok) ->
    match ok with
    | None => next s it = Ok (it', (None, None))
    | Some k => exists g, glookup k gs = Some g /\ next s it = let! r := value_at (heap s) k (fst (snd g)) in Ok (it', r)
    end.

  Fixpoint trace (fuel : nat) (sh : Sh) (it : I) : outcome (option (list bytes * I)) :=
    match fuel with
    | O => Ok None
    | S f => let! (it, k) := pos sh it in
             match k with None => Ok (Some ([], it)) | Some k => let! r := trace f sh it in Ok (option_map (fun x => (k :: fst x, snd x)) r) end
    end.

  Lemma edit_step s t l m o : KR BE R s t -> St t l m -> solid m -> overwrites m o ->
    exists s1 t1 l1 r, kstep BE s o = Ok (s1, r) /\ KR BE R s1 t1 /\ St t1 l1 (plain_step m o) /\ shape (bk s1) = shape (bk s).
  Proof.
    intros K S So H.
    assert (D : data_op o) by (destruct o as [k0 c mg [a|] [fn|]| | | | | |]; cbn in *; tauto).
    assert (A : no_alias_op o) by (destruct o; cbn in *; tauto).
    destruct (plain_ok t l m o S D) as (t1 & l1 & r & E & S1 & _). pose proof (kstep_rel BE R look_ok upd_ok s t o K A) as O. rewrite E in O.
    destruct (kstep BE s o) as [[s1 r1]|] eqn:E1; [|contradiction]. destruct O as [K1 Er]. cbn [fst snd] in *. exists s1, t1, l1, r1.
    split; [reflexivity|]. split; [exact K1|]. split; [exact S1|].
    destruct o as [k c mg [a|] [fn|]| | k | | | |]; cbn [overwrites] in H; try contradiction.
    - destruct H as (N & P & _). destruct (set_upd BE s s1 k c mg r1 N E1) as (v & U). apply (shape_upd _ (bk t) (canonicalize_key k) v); [apply K| |exact U].
      destruct S as (Hb & _ & _ & _ & HV). rewrite Hb, glookup_one. intros X. apply P. rewrite <- HV. unfold V. destruct (alook _ l); [discriminate|reflexivity].
    - cbn [kstep] in E1. destruct (sid_kvs_get BE s k) as [[c r2]|]; cbn [obind] in E1; [|discriminate]. injection E1 as <- _. reflexivity.
  Qed.
  Lemma edits_ok ops : forall s t l m, KR BE R s t -> St t l m -> solid m -> Forall (overwrites m) ops ->
    exists s1 t1 l1 rs, krun BE s ops = Ok (s1, rs) /\ KR BE R s1 t1 /\ St t1 l1 (plain_run m ops) /\ solid (plain_run m ops) /\
      domeq m (plain_run m ops) /\ shape (bk s1) = shape (bk s).
  Proof.
    induction ops as [|o ops IH]; intros s t l m K S So F.
    - exists s, t, l, []. split; [reflexivity|]. split; [exact K|]. split; [exact S|]. split; [exact So|]. split; [intros k; reflexivity|reflexivity].
    - inversion F as [|? ? Ho Fo]; subst. destruct (edit_step s t l m o K S So Ho) as (s1 & t1 & l1 & r & E1 & K1 & S1 & Sh1).
      assert (D := over_step m o Ho).
      destruct (IH s1 t1 l1 (plain_step m o) K1 S1 (solid_step m o Ho So)) as (s2 & t2 & l2 & rs & E2 & K2 & S2 & So2 & D2 & Sh2).
      { apply Forall_forall. intros x Hx. rewrite Forall_forall in Fo. apply (overwrites_dom m); auto. }
      exists s2, t2, l2, (r :: rs). cbn [krun]. rewrite E1. cbn [obind]. rewrite E2. cbn [obind]. split; [reflexivity|]. split; [exact K2|]. split; [exact S2|].
      split; [exact So2|]. split; [|congruence]. intros k. rewrite (D k). apply D2.
  Qed.

  Lemma walk_ok fuel : forall s t l m it edits ks it', KR BE R s t -> St t l m -> solid m -> Forall (Forall (overwrites m)) edits ->
    trace fuel (shape (bk s)) it = Ok (Some (ks, it')) ->
    exists l' s' rs, walk next fuel s it edits = Ok (Some (l', s', it')) /\ map fst l' = ks /\
      krun BE s (List.concat (firstn (length ks) edits)) = Ok (s', rs) /\
      forall i k c, nth_error l' i = Some (k, c) -> plain_run m (List.concat (firstn i edits)) k = Some c.
  Proof.
    induction fuel as [|f IH]; intros s t l m it edits ks it' K S So F E; [discriminate|]. cbn [trace] in E.
    destruct (pos (shape (bk s)) it) as [[it1 [k|]]|] eqn:Ep; cbn [obind] in E; [| |discriminate].
    - destruct (trace f (shape (bk s)) it1) as [[[ks1 it2]|]|] eqn:Ek; cbn [obind option_map fst snd] in E; [|discriminate|discriminate]. injection E as <- <-.
      destruct (next_ok s (bk t) it it1 (Some k) (proj1 K) Ep) as (g & Eg & En).
      assert (Hg : exists v c, g = ([k], v) /\ cont (heap t) (fst v) = Some c /\ m k = Some c).
      { destruct S as (Hb & _ & _ & Iv & HV). rewrite Hb, glookup_one in Eg. destruct (alook k l) as [v|] eqn:El; [|discriminate]. injection Eg as <-.
        assert (A := inv_alive _ _ _ _ _ _ _ Iv El eq_refl). specialize (HV k). unfold V in HV. rewrite El in HV.
        destruct (cont (heap t) (fst v)) as [c|] eqn:Ec; [|congruence]. exists v, c. auto. }
      destruct Hg as (v & c & -> & Ec & Em). cbn [snd] in En. unfold value_at in En. assert (Ne : fst v <> 0) by (intros e; rewrite e in Ec; discriminate).
      apply N.eqb_neq in Ne. rewrite Ne in En. assert (Eh : heap s = heap t) by apply K. rewrite Eh, (hread_ok _ _ _ Ec) in En. cbn [obind] in En.
      assert (Nn : null_ref c = false) by (apply null_solid; eapply So; exact Em). unfold get_data in En. rewrite Nn in En.
      assert (Fh : Forall (overwrites m) (hd [] edits)) by (destruct edits; [constructor|inversion F; assumption]).
      destruct (edits_ok (hd [] edits) s t l m K S So Fh) as (s1 & t1 & l1 & rs1 & E1 & K1 & S1 & So1 & D1 & Sh1).
      assert (Ft : Forall (Forall (overwrites (plain_run m (hd [] edits)))) (tl edits)).
      { destruct edits as [|e es]; [constructor|]. inversion F as [|? ? Fe Fes]; subst. cbn [hd tl] in *. eapply Forall_impl; [|exact Fes].
        intros x. apply Forall_impl. intros o. apply overwrites_dom, D1. }
      rewrite <- Sh1 in Ek. destruct (IH s1 t1 l1 _ it1 (tl edits) ks1 it2 K1 S1 So1 Ft Ek) as (l' & s' & rs & W & Hk & Kr & Hv).
      exists ((k, c) :: l'), s'.
      assert (Ecat : List.concat (firstn (length (k :: ks1)) edits) = hd [] edits ++ List.concat (firstn (length ks1) (tl edits))).
      { destruct edits as [|e es]; cbn [length firstn List.concat hd tl app]; [rewrite firstn_nil; reflexivity|reflexivity]. }
      exists (rs1 ++ rs). cbn [walk]. rewrite En. cbn [obind]. rewrite E1. cbn [obind]. rewrite W. cbn [obind option_map fst snd].
      split; [reflexivity|]. split; [cbn; congruence|]. rewrite Ecat. split; [rewrite krun_app', E1; cbn [obind]; rewrite Kr; reflexivity|].
      intros [|i] k' c' Hn; cbn [nth_error] in Hn.
        * injection Hn as <- <-. cbn. exact Em.
        * specialize (Hv i k' c' Hn). destruct edits as [|e es]; cbn [hd tl firstn List.concat] in *.
          -- rewrite firstn_nil in Hv. exact Hv.
          -- unfold plain_run in *. rewrite fold_left_app. exact Hv.
    - injection E as <- <-. pose proof (next_ok s (bk t) it it1 None (proj1 K) Ep) as En. cbn [walk]. rewrite En. cbn [obind].
      exists [], s, []. split; [reflexivity|]. split; [reflexivity|]. cbn [length firstn List.concat krun]. split; [reflexivity|].
      intros i k c Hn. destruct i; discriminate.
  Qed.
End Generic.

(* From keys to pairs *)
Section Covers.
  Variables (BE : backend) (I : Type) (m : cmap) (Q : bytes -> Prop).
  Lemma covers_ok l ks : map fst l = ks -> NoDup ks -> (forall k, In k ks <-> m k <> None /\ Q k) ->
    (forall i k c, nth_error l i = Some (k, c) -> m k = Some c) -> covers m Q l.
  Proof.
    intros E ND Hk Hv. subst ks. split; [exact ND|]. intros k c. split.
    - intros H. destruct (In_nth_error _ _ H) as [i Hi]. split; [eapply Hv; exact Hi|]. apply Hk. change k with (fst (k, c)). apply in_map. exact H.
    - intros [H1 H2]. assert (Hin : In k (map fst l)) by (apply Hk; split; [congruence|exact H2]). apply in_map_iff in Hin as ([k' c'] & E & Hin). cbn in E. subst k'.
      destruct (In_nth_error _ _ Hin) as [i Hi]. rewrite (Hv i k c' Hi) in H1. injection H1 as ->. exact Hin.
  Qed.
End Covers.

(* The hash table *)
Definition hshape (t : htable) : list (N * bytes) := map (fun n => (nid n, nkey n)) (List.concat (slots t)).
Fixpoint after (a : N) (l : list (N * bytes)) : option (list (N * bytes)) :=
  match l with [] => None | x :: r => if fst x =? a then Some r else after a r end.
Definition hpos (sh : list (N * bytes)) (cur : option N) : outcome (option N * option bytes) :=
  match (match cur with None => Some sh | Some a => after a sh end) with
  | None => UB
  | Some [] => Ok (None, None)
  | Some ((i, k) :: _) => Ok (Some i, Some (removelast k))
  end.
Definition RH2 (t : htable) (gs : list grp) : Prop := RH t gs /\ forall k, abs t k <> [] -> exists j, k = j ++ [NUL].
Lemma RH2_look t gs k : RH2 t gs -> blook hash_backend t k = Ok (option_map out (glookup k gs)).
Proof. intros [H _]. apply RH_look. exact H. Qed.
Lemma RH2_upd t gs k a : RH2 t gs -> (fst a = BWRITE -> fst (snd a) <> 0) ->
  exists t', bupd hash_backend t k a = Ok t' /\ RH2 t' (fst (gstep gs (BUpdate k (fun _ => a)))).
Proof.
  intros [H Hk] N. destruct (RH_upd t gs k a H N) as (t' & E & H'). exists t'. split; [exact E|]. split; [exact H'|].
  cbn [bupd hash_backend] in E. injection E as <-.
  destruct (hstep_ok (fun _ _ _ => true) t (HUpdate (k ++ [NUL]) (fun _ => (hact_of (fst a), snd a))) (proj1 H)) as [_ A']. cbn [hstep mm_step] in A'.
  intros j. rewrite A'. destruct a as [[| |] v]; cbn [hact_of fst snd]; [apply Hk| |]; unfold mm_set; (destruct (bytes_eqb_spec (k ++ [NUL]) j) as [<-|]; [intros _; eauto|apply Hk]).
Qed.
Lemma hash_start2 hint : hint <= 2 ^ 31 -> exists t, hash_create hint = Some t /\ KR hash_backend RH2 (hkempty t) kempty.
Proof.
  intros H. destruct (hash_start hint H) as (t & E & K1 & K2). exists t. split; [exact E|]. split; [|exact K2]. split; [exact K1|].
  destruct (Hash_Proofs.create_ok hint H) as (t' & E' & _ & A). rewrite E in E'. injection E' as <-. intros k X. exfalso. apply X. apply A.
Qed.
Lemma hshape_upd t gs k v t' : RH2 t gs -> glookup k gs <> None -> bupd hash_backend t k (BWRITE, v) = Ok t' -> hshape t' = hshape t.
Proof.
  intros [(I & l & -> & _ & _ & Ha) _] N. cbn [bupd hash_backend hact_of fst snd]. intros E. injection E as <-. unfold hash_update. destruct v as [d z].
  pose proof (hfind_abs t (k ++ [NUL])) as Hf. rewrite Ha in Hf. rewrite glookup_one in N. destruct (alook k l) as [w|]; [|exfalso; apply N; reflexivity].
  destruct (hfind t (k ++ [NUL])) as [n|]; [|discriminate]. unfold hshape, with_chain. cbn [slots].
  destruct (concat_split (slots t) (slot_of t (k ++ [NUL])) (slot_lt t _ I)) as (a & b & E & _ & Es). rewrite Es. fold (chain_at t (k ++ [NUL])) in E.
  transitivity (map (fun n => (nid n, nkey n)) (List.concat (a ++ chain_at t (k ++ [NUL]) :: b))); [|rewrite <- E; reflexivity].
  rewrite !concat_app. cbn [List.concat].
  rewrite !map_app. f_equal. f_equal. clear E Es. induction (chain_at t (k ++ [NUL])) as [|x c IH]; [reflexivity|].
  cbn [on_first map]. destruct (key_match _ x); cbn [app map]; [reflexivity|f_equal; exact IH].
Qed.
Lemma find_after t a l : map (fun n => (nid n, nkey n)) l = t ->
  match List.find (fun n => nid n =? a) l with
  | Some n => exists pre post, l = pre ++ n :: post /\ after a t = Some (map (fun n => (nid n, nkey n)) post)
  | None => after a t = None
  end.
Proof.
  intros <-. induction l as [|x l IH]; cbn [List.find map after fst]; [reflexivity|]. destruct (nid x =? a).
  - exists [], l. auto.
  - destruct (List.find _ l) as [n|]; [|exact IH]. destruct IH as (pre & post & -> & E). exists (x :: pre), post. auto.
Qed.
Lemma hnode_val t gs n : RH2 t gs -> In n (List.concat (slots t)) ->
  exists j v, nkey n = j ++ [NUL] /\ glookup j gs = Some ([j], v) /\ fst v = ndata n.
Proof.
  intros [(I & l & -> & _ & _ & Ha) Hk] Hin. pose proof (iter_key t (nkey n) I) as E.
  assert (Hf : In (Hash_Proofs.ent n) (abs t (nkey n))).
  { rewrite <- E. apply in_map. apply filter_In. split; [exact Hin|]. apply bytes_eqb_eq. reflexivity. }
  destruct (Hk (nkey n)) as [j Ej]; [intros X; rewrite X in Hf; destruct Hf|]. rewrite Ej, Ha in Hf. exists j.
  destruct (alook j l) as [v|] eqn:El; [|destruct Hf]. destruct Hf as [Hv|[]]. exists v. split; [exact Ej|]. rewrite glookup_one, El. split; [reflexivity|]. rewrite Hv. reflexivity.
Qed.
Lemma hnext_ok (s : kv hash_backend) gs it it' ok : RH2 (bk s) gs -> hpos (hshape (bk s)) it = Ok (it', ok) ->
  match ok with
  | None => hiter_next s it = Ok (it', (None, None))
  | Some k => exists g, glookup k gs = Some g /\ hiter_next s it = let! r := value_at (heap s) k (fst (snd g)) in Ok (it', r)
  end.
Proof.
  intros H. unfold hpos, hiter_next, hiter_move.
  assert (X : forall post, (forall n, In n post -> In n (List.concat (slots (bk s)))) ->
    match map (fun n => (nid n, nkey n)) post with [] => Ok (None, None) | (i, k) :: _ => Ok (Some i, Some (removelast k)) end = Ok (it', ok) ->
    match ok with
    | None => (let! m := Ok (hd_error post) in match m with None => Ok (None, (None, None)) | Some n => let! r := value_at (heap s) (removelast (nkey n)) (ndata n) in Ok (Some (nid n), r) end) = Ok (it', (None, None))
    | Some k => exists g, glookup k gs = Some g /\
       (let! m := Ok (hd_error post) in match m with None => Ok (None, (None, None)) | Some n => let! r := value_at (heap s) (removelast (nkey n)) (ndata n) in Ok (Some (nid n), r) end)
         = let! r := value_at (heap s) k (fst (snd g)) in Ok (it', r)
    end).
  { intros [|n post] Hs E; cbn [map hd_error obind] in *; [injection E as <- <-; reflexivity|]. injection E as <- <-.
    destruct (hnode_val _ _ n H (Hs n (or_introl eq_refl))) as (j & v & Ej & Eg & Ev). rewrite Ej, removelast_last. exists ([j], v). cbn [snd]. rewrite Ev. auto. }
  destruct it as [a|].
  - pose proof (find_after (hshape (bk s)) a _ eq_refl) as F. unfold hnode_at. unfold hash_iter.
    destruct (List.find _ (List.concat (slots (bk s)))) as [n|] eqn:Ef; [|rewrite F; discriminate]. destruct F as (pre & post & E & ->).
    cbn [obind]. rewrite (get_next_ok (bk s) pre n post (proj1 (proj1 H)) E). apply X. intros x Hx. rewrite E. apply in_app_iff. right. right. exact Hx.
  - unfold hash_get_first, next_slot. rewrite skipn_O, hd_heads. apply X. auto.
Qed.
Lemma after_app a pre post : ~ In a (map fst pre) -> after a (pre ++ post) = after a post.
Proof. induction pre as [|x pre IH]; cbn; intros H; [reflexivity|]. destruct (N.eqb_spec (fst x) a); [exfalso; apply H; auto|]. apply IH. tauto. Qed.
Lemma htrace fuel : forall sh pre post, sh = pre ++ post -> NoDup (map fst sh) -> (length post < fuel)%nat ->
  trace hpos fuel sh (match rev pre with [] => None | x :: _ => Some (fst x) end) = Ok (Some (map (fun x => removelast (snd x)) post, None)).
Proof.
  induction fuel as [|f IH]; intros sh pre post E ND L; [lia|]. cbn [trace]. unfold hpos at 1.
  assert (X : match (match rev pre with [] => None | x :: _ => Some (fst x) end) with None => Some sh | Some a => after a sh end = Some post).
  { destruct (rev pre) as [|x r] eqn:Er; [apply (f_equal (@rev _)) in Er; rewrite rev_involutive in Er; cbn in Er; subst pre; rewrite E; reflexivity|].
    apply (f_equal (@rev _)) in Er. rewrite rev_involutive in Er. cbn in Er. rewrite Er in E. rewrite E in ND. rewrite !map_app in ND. cbn [map] in ND.
    rewrite <- app_assoc in ND. cbn [app] in ND. apply NoDup_remove_2 in ND. rewrite E, <- app_assoc. rewrite after_app by (intros Hi; apply ND; apply in_app_iff; auto).
    cbn [app after]. rewrite N.eqb_refl. reflexivity. }
  rewrite X. destruct post as [|[i k] post]; cbn [obind map snd]; [reflexivity|].
  specialize (IH sh (pre ++ [(i, k)]) post). rewrite rev_app_distr in IH. cbn [rev app fst] in IH. rewrite IH.
  - reflexivity.
  - rewrite <- app_assoc. exact E.
  - exact ND.
  - cbn in L. lia.
Qed.
Lemma NoDup_count l : (forall k, (length (List.filter (fun n => bytes_eqb k (nkey n)) l) <= 1)%nat) -> NoDup (map nkey l).
Proof.
  induction l as [|n l IH]; intros H; cbn [map]; constructor.
  - intros Hin. apply in_map_iff in Hin as (x & E & Hin). specialize (H (nkey n)). cbn [List.filter] in H.
    rewrite (proj2 (bytes_eqb_eq (nkey n) (nkey n)) eq_refl) in H. cbn [length] in H.
    assert (Hx : In x (List.filter (fun y => bytes_eqb (nkey n) (nkey y)) l)) by (apply filter_In; split; [exact Hin|apply bytes_eqb_eq; auto]).
    destruct (List.filter _ l); [destruct Hx|cbn in H; lia].
  - apply IH. intros k. specialize (H k). cbn [List.filter] in H. destruct (bytes_eqb k (nkey n)); cbn [length] in *; lia.
Qed.
Lemma hkeys_ok t gs : RH2 t gs -> let ks := map (fun x : N * bytes => removelast (snd x)) (hshape t) in NoDup ks /\ forall k, In k ks <-> glookup k gs <> None.
Proof.
  intros H. pose proof H as [(I & l & -> & _ & _ & Ha) Hk]. cbv zeta. unfold hshape. rewrite map_map. cbn [snd]. split.
  - assert (ND : NoDup (map nkey (List.concat (slots t)))).
    { apply NoDup_count. intros k. pose proof (iter_key t k I) as E. apply (f_equal (@length _)) in E. rewrite map_length in E. unfold hash_iter in E. rewrite E.
      destruct (abs t k) as [|e r] eqn:Ea; [cbn; lia|]. destruct (Hk k) as [j ->]; [congruence|]. rewrite Ha in Ea. destruct (alook j l); [|discriminate].
      injection Ea as _ <-. cbn. lia. }
    rewrite <- (map_map nkey (@removelast _)). assert (Hn : forall x, In x (map nkey (List.concat (slots t))) -> exists j, x = j ++ [NUL]).
    { intros x Hx. apply in_map_iff in Hx as (n & <- & Hin). destruct (hnode_val t _ n H Hin) as (j & v & E & _). eauto. }
    revert ND Hn. generalize (map nkey (List.concat (slots t))). induction l0 as [|x l0 IH]; intros ND Hn; cbn [map]; [constructor|]. inversion ND as [|? ? N1 N2]; subst.
    constructor; [|apply IH; [exact N2|intros y Hy; apply Hn; right; exact Hy]]. intros Hi. apply in_map_iff in Hi as (y & E & Hy).
    destruct (Hn x (or_introl eq_refl)) as [jx ->]. destruct (Hn y (or_intror Hy)) as [jy ->]. rewrite !removelast_last in E. subst jy. contradiction.
  - intros k. rewrite in_map_iff. split.
    + intros (n & E & Hin). destruct (hnode_val t _ n H Hin) as (j & v & Ej & Eg & _). rewrite Ej, removelast_last in E. subst j. congruence.
    + intros N. rewrite glookup_one in N. specialize (Ha k). destruct (alook k l) as [v|]; [|exfalso; apply N; reflexivity]. pose proof (iter_key t (k ++ [NUL]) I) as E. rewrite Ha in E.
      destruct (List.filter _ (hash_iter t)) as [|n r] eqn:Ef; [discriminate|]. assert (Hn : In n (List.filter (fun n => bytes_eqb (k ++ [NUL]) (nkey n)) (hash_iter t))) by (rewrite Ef; left; reflexivity).
      apply filter_In in Hn as [Hn Hm]. apply bytes_eqb_eq in Hm. exists n. rewrite <- Hm, removelast_last. auto.
Qed.

(* The B+ tree *)
Definition skel (r : option tree) : bpt :=
  {| root := r; order := 0; meta := 0; dsize := 0; nent := 0; recs := fun _ => Some {| rdata := 0; rsize := 0; rref := 0 |}; kobj := fun _ => None; bfresh := 0 |}.
Definition bpos (r : option tree) (it : biter) : outcome (biter * option bytes) := let! (it, e) := bptree_iter_next (skel r) it in Ok (it, option_map fst e).

Lemma bshape_upd b gs k v b' : RB b gs -> glookup k gs <> None -> bupd bptree_backend b k (BWRITE, v) = Ok b' -> root b' = root b.
Proof.
  intros (zs & l & Hb & E & El) N. cbn [bupd bptree_backend]. unfold bptree_update. destruct v as [d z]. pose proof Hb as (T & _ & Z). rewrite bfind_ok by auto. cbn [obind].
  destruct (sfind k (rents (root b))) as [r|] eqn:Es.
  - destruct (deref b r) as [x|] eqn:Ed; cbn [obind]; [|discriminate]. unfold overwrite. rewrite Ed. cbn [obind]. intros X. injection X as <-. reflexivity.
  - exfalso. apply N. pose proof (RB_look b gs k) as L. cbn [blook bptree_backend] in L. unfold bptree_lookup in L. rewrite bfind_ok, Es in L by auto. cbn [obind] in L.
    assert (L' : Ok None = Ok (option_map out (glookup k gs))) by (apply L; exists zs, l; auto). destruct (glookup k gs); [discriminate|reflexivity].
Qed.
Lemma leaf_at_in t a l : leaf_at t a = Ok l -> In l (Bptree_Model.leaves t).
Proof. unfold leaf_at. destruct (List.find _ (Bptree_Model.leaves t)) as [x|] eqn:E; [|discriminate]. intros X. injection X as <-. apply find_some in E. apply E. Qed.
Lemma first_leaf_in : forall t l, first_leaf t = Ok l -> In l (Bptree_Model.leaves t).
Proof.
  fix IH 1. intros [a nx ks rs|ks [|c cs]] l; cbn [first_leaf Bptree_Model.leaves]; [intros X; injection X as <-; left; reflexivity|discriminate|].
  intros H. apply IH in H. cbn [flat_map]. apply in_app_iff. left. exact H.
Qed.
Lemma find_leaf_in k : forall t l, find_leaf t k = Ok l -> In l (Bptree_Model.leaves t).
Proof.
  fix IH 1. intros [a nx ks rs|ks cs] l; cbn [find_leaf Bptree_Model.leaves]; [intros X; injection X as <-; left; reflexivity|].
  generalize (child_idx k ks). induction cs as [|c cs IHc]; intros i; [discriminate|]. cbn [flat_map]. intros H. apply in_app_iff. destruct i as [|i].
  - left. apply IH. exact H.
  - right. eapply IHc. exact H.
Qed.
Lemma move_in s it lf i : iter_move s it = Ok (Some (lf, i)) -> exists t, root s = Some t /\ In lf (Bptree_Model.leaves t).
Proof.
  unfold iter_move. destruct (ic it) as [[a j]|].
  - destruct (root s) as [t|]; [|discriminate]. destruct (leaf_at t a) as [[b nx ks rs|]|] eqn:E; cbn [obind]; [|discriminate|discriminate]. apply leaf_at_in in E.
    destruct (_ <? _)%nat; [intros X; injection X as <- _; eauto|]. destruct nx as [c|]; [|discriminate].
    destruct (leaf_at t c) as [l'|] eqn:E'; cbn [obind]; [|discriminate]. apply leaf_at_in in E'. intros X. injection X as <- _. eauto.
  - destruct (root s) as [t|]; [|discriminate]. destruct (istart it) as [k|].
    + unfold find. destruct (find_leaf t k) as [[b nx ks rs|]|] eqn:E; cbn [obind]; [|discriminate|discriminate]. apply find_leaf_in in E. destruct (_ =? _)%nat; cbn [obind fst snd].
      * intros X. injection X as <- _. eauto.
      * destruct (get rs _); cbn [obind fst snd]; [|discriminate]. intros X. injection X as <- _. eauto.
    + destruct (first_leaf t) as [l|] eqn:E; cbn [obind]; [|discriminate]. apply first_leaf_in in E. intros X. injection X as <- _. eauto.
Qed.
Lemma get_both {A B} (ks : list A) (rs : list B) i k r : get ks i = Ok k -> get rs i = Ok r -> In (k, r) (combine ks rs).
Proof.
  unfold get. revert rs i. induction ks as [|a ks IH]; intros [|b rs] [|i]; cbn; try discriminate.
  - intros X Y. injection X as ->. injection Y as ->. left. reflexivity.
  - intros X Y. right. eapply IH; eauto.
Qed.
Lemma bnext_ok (s : kv bptree_backend) gs it it' ok : RB (bk s) gs -> bpos (root (bk s : bpt)) it = Ok (it', ok) ->
  match ok with
  | None => biter_next s it = Ok (it', (None, None))
  | Some k => exists g, glookup k gs = Some g /\ biter_next s it = let! r := value_at (heap s) k (fst (snd g)) in Ok (it', r)
  end.
Proof.
  intros (zs & l & Hb & E & El). unfold bpos, biter_next, bptree_iter_next. change (iter_move (skel (root (bk s : bpt))) it) with (iter_move (bk s) it).
  destruct (iter_move (bk s) it) as [[[lf i]|]|] eqn:Em; cbn [obind]; [|intros X; injection X as <- <-; reflexivity|discriminate].
  destruct lf as [a nx ks rs|]; [|discriminate]. destruct (move_in _ _ _ _ Em) as (t & Et & Hin). destruct (get ks i) as [k|] eqn:Ek; cbn [obind]; [|discriminate].
  destruct (match im it with EXACT => _ | PREFIX => _ end); cbn [obind]; [intros X; injection X as <- <-; reflexivity|].
  destruct (get rs i) as [r|] eqn:Er; cbn [obind]; [|discriminate]. unfold deref at 1. cbn [skel recs obind option_map fst]. intros X. injection X as <- <-.
  assert (He : In (k, r) (rents (root (bk s : bpt)))).
  { rewrite Et. cbn [rents]. rewrite <- leaves_ents. apply in_flat_map. exists (Leaf a nx ks rs). split; [exact Hin|]. cbn [ents]. eapply get_both; eauto. }
  destruct (lookup_in (bk s) zs k r Hb) as (g & Eg & Ec); [|exact He|].
  { apply (gle_small 1); [rewrite E, El; apply one_gle|lia]. }
  exists g. rewrite <- E. split; [exact Eg|]. unfold deref. rewrite Ec. cbn [obind rdata rsize rref fst snd]. reflexivity.
Qed.
Lemma next_bounds s it it' e : bptree_iter_next s it = Ok (it', e) -> set_ic it' None = set_ic it None /\ (e = None -> it' = set_ic it None).
Proof.
  unfold bptree_iter_next. destruct (iter_move s it) as [[[[a nx ks rs|] i]|]|]; cbn [obind]; try discriminate.
  - destruct (get ks i); cbn [obind]; [|discriminate]. destruct (match im it with EXACT => _ | PREFIX => _ end); [intros X; injection X as <- <-; auto|].
    destruct (get rs i); cbn [obind]; [|discriminate]. destruct (deref s a1); cbn [obind]; [|discriminate]. intros X. injection X as <- <-. split; [reflexivity|discriminate].
  - intros X. injection X as <- <-. auto.
Qed.
Lemma bpos_next s it it' e : bptree_iter_next s it = Ok (it', e) -> bpos (root s) it = Ok (it', option_map fst e).
Proof.
  unfold bpos, bptree_iter_next. change (iter_move (skel (root s)) it) with (iter_move s it).
  destruct (iter_move s it) as [[[[a nx ks rs|] i]|]|]; cbn [obind]; try discriminate.
  - destruct (get ks i); cbn [obind]; [|discriminate]. destruct (match im it with EXACT => _ | PREFIX => _ end); [intros X; injection X as <- <-; reflexivity|].
    destruct (get rs i); cbn [obind]; [|discriminate]. destruct (deref s a1); cbn [obind]; [|discriminate]. intros X. injection X as <- <-. reflexivity.
  - intros X. injection X as <- <-. reflexivity.
Qed.
Lemma btrace s fuel : forall it l, iter_all fuel s it = Ok (Some l) -> trace bpos fuel (root s) it = Ok (Some (map fst l, set_ic it None)).
Proof.
  induction fuel as [|f IH]; intros it l; [discriminate|]. cbn [iter_all trace]. destruct (bptree_iter_next s it) as [[it' e]|] eqn:E; cbn [obind fst snd]; [|discriminate].
  rewrite (bpos_next s it it' e E). cbn [obind]. destruct (next_bounds s it it' e E) as [B1 B2]. destruct e as [e|]; cbn [option_map].
  - destruct (iter_all f s it') as [[l'|]|] eqn:E'; cbn [obind option_map]; [|discriminate|discriminate]. intros X. injection X as <-. rewrite (IH it' l' E'). cbn. rewrite B1. reflexivity.
  - intros X. injection X as <-. rewrite B2 by reflexivity. reflexivity.
Qed.
Lemma trace_fuel {Sh I} (pos : Sh -> I -> outcome (I * option bytes)) sh f : forall f' it ks it',
  trace pos f sh it = Ok (Some (ks, it')) -> (length ks < f')%nat -> trace pos f' sh it = Ok (Some (ks, it')).
Proof.
  induction f as [|f IH]; intros [|f'] it ks it' E L; try discriminate; try lia. cbn [trace] in *. destruct (pos sh it) as [[it1 [k|]]|]; cbn [obind] in *; [| |discriminate].
  - destruct (trace pos f sh it1) as [[[ks1 it2]|]|] eqn:Et; cbn [obind option_map fst snd] in E; [|discriminate|discriminate]. injection E as <- <-.
    rewrite (IH f' it1 ks1 it2 Et) by (cbn in L; lia). reflexivity.
  - exact E.
Qed.
Lemma sorted_nodup l : Sorted.StronglySorted str_lt l -> NoDup l.
Proof.
  induction 1 as [|x l S IH F]; constructor; [|exact IH]. intros H. rewrite Forall_forall in F. apply F in H. apply str_lt_slt in H. apply (slt_irrefl _ H).
Qed.
Lemma bkeys_ok (b : bpt) gs bd : RB b gs -> (match bd with Range (Some f) _ => glookup f gs <> None | _ => True end) ->
  exists ks, Sorted.StronglySorted str_lt ks /\ (forall k, In k ks <-> glookup k gs <> None /\ within bd k) /\
    forall fuel, (length ks < fuel)%nat -> trace bpos fuel (root b) (biter_create bd) = Ok (Some (ks, biter_create bd)).
Proof.
  intros (zs & l & Hb & E & El) Hf. assert (Hsm : small zs) by (apply (gle_small 1); [rewrite E, El; apply one_gle|lia]).
  assert (G : exists l' P, iter_all (S (length (rents (root b)))) b (biter_create bd) = Ok (Some l') /\ lists l' P gs /\ (forall k, glookup k gs <> None -> (P k <-> within bd k))).
  { destruct bd as [[f|] la|p]; cbn [biter_create within].
    - destruct (iter_from_start b zs Hb Hsm f la _ (Nat.lt_succ_diag_r _)) as (from & l' & I1 & I2 & _ & I4). rewrite E in *. exists l', (fun k => from k = true /\ at_most la k).
      split; [exact I1|]. split; [exact I2|]. intros k Hk. rewrite (I4 Hf k Hk). unfold at_most. tauto.
    - destruct (iter_from_first b zs Hb Hsm la _ (Nat.lt_succ_diag_r _)) as (l' & I1 & I2). rewrite E in *. exists l', (at_most la). split; [exact I1|]. split; [exact I2|].
      intros k _. unfold at_most. tauto.
    - destruct (iter_prefix b zs Hb Hsm p _ (Nat.lt_succ_diag_r _)) as (l' & I1 & I2). rewrite E in *. exists l', (fun k => exists r, k = p ++ r). split; [exact I1|]. split; [exact I2|].
      intros k _. tauto. }
  destruct G as (l' & P & I1 & [I2 I3] & I4). exists (map fst l'). split; [exact I2|]. split.
  - intros k. rewrite in_map_iff. split.
    + intros ([k' v] & Ek & Hin). cbn in Ek. subst k'. apply I3 in Hin as [Hl Hp]. assert (Hn : glookup k gs <> None) by (intros X; rewrite X in Hl; discriminate).
      split; [exact Hn|]. apply I4; auto.
    + intros [Hn Hw]. destruct (glookup k gs) as [g|] eqn:Eg; [|congruence]. exists (k, out g). split; [reflexivity|]. apply I3. rewrite Eg. split; [reflexivity|].
      apply I4; [congruence|exact Hw].
  - intros fuel Hfu. apply (trace_fuel bpos (root b) _ fuel _ _ _ (btrace b _ _ _ I1) Hfu) || (eapply trace_fuel; [|exact Hfu]; pose proof (btrace b _ _ _ I1) as X).
    destruct bd as [[f|] la|p]; exact X.
Qed.

(* Both stores *)
Lemma segs_ok segs : Forall seg_ok segs -> exists t l rs, krun spec_backend kempty (history segs) = Ok (t, rs) /\ St t l (seg_run segs) /\ Forall no_alias_op (history segs).
Proof.
  intros F. destruct (history_ok segs _ _ _ empty_St F) as (t & l & rs & E & S & _). exists t, l, rs. split; [exact E|]. split; [exact S|]. apply history_no_alias. exact F.
Qed.
Lemma St_dom t l m k : St t l m -> (glookup k (bk t : list grp) <> None <-> m k <> None).
Proof.
  intros (Hb & _ & _ & Iv & HV). rewrite Hb, glookup_one. rewrite <- HV. unfold V. destruct (alook k l) as [v|] eqn:El; cbn [option_map].
  - assert (A := inv_alive _ _ _ _ _ _ _ Iv El eq_refl). split; intros _; [exact A|discriminate].
  - tauto.
Qed.

Lemma hash_visits hint segs b : hint <= 2 ^ 31 -> Forall seg_ok segs -> solid (seg_run segs) ->
  hash_store hint (history segs) (fun s => exists ks, NoDup ks /\ (forall k, In k ks <-> seg_run segs k <> None) /\
    hash_entries s = N.of_nat (length ks) mod 2 ^ 32 /\ visits hiter_next s (seg_run segs) (hiter_create b) None ks).
Proof.
  intros Hh F So. destruct (segs_ok segs F) as (t & l & rs & E & S & A). destruct (hash_start2 hint Hh) as (ht & Ec & K0).
  pose proof (krun_rel hash_backend RH2 RH2_look RH2_upd _ A _ _ K0) as O. rewrite E in O. fold (hkempty ht) in *.
  destruct (krun hash_backend (hkempty ht) (history segs)) as [[s rs']|] eqn:Eh; [|contradiction]. destruct O as [K _]. cbn [fst] in K.
  exists ht, s, rs'. split; [exact Ec|]. split; [exact Eh|].
  destruct (hkeys_ok (bk s) (bk t) (proj1 K)) as [ND Hk]. exists (map (fun x : N * bytes => removelast (snd x)) (hshape (bk s))). split; [exact ND|]. split.
  - intros k. rewrite Hk. apply (St_dom t l). exact S.
  - rewrite map_length. unfold hshape at 1. rewrite map_length. split; [apply (inv_cnt (bk s) (proj1 (proj1 (proj1 K))))|].
    intros edits fuel Fe L.
    apply (walk_ok hash_backend RH2 RH2_look RH2_upd hshape hshape_upd hpos hiter_next hnext_ok fuel s t l (seg_run segs) (hiter_create b) edits _ None K S So Fe).
    apply (htrace fuel (hshape (bk s)) [] (hshape (bk s)) eq_refl); [|rewrite map_length in L; exact L].
    unfold hshape. rewrite map_map. apply (inv_nodup (bk s) (proj1 (proj1 (proj1 K)))).
Qed.
Lemma bptree_visits order segs b : (4 <= order)%nat -> Forall seg_ok segs -> solid (seg_run segs) -> begins (seg_run segs) b ->
  bptree_store order (history segs) (fun s => exists ks, Sorted.StronglySorted str_lt ks /\ (forall k, In k ks <-> seg_run segs k <> None /\ within b k) /\
    visits biter_next s (seg_run segs) (biter_create b) (biter_create b) ks).
Proof.
  intros Hh F So Hbg. destruct (segs_ok segs F) as (t & l & rs & E & S & A). destruct (bptree_start order Hh) as (ht & Ec & K0).
  pose proof (krun_rel bptree_backend RB RB_look RB_upd _ A _ _ K0) as O. rewrite E in O. fold (bkempty ht) in *.
  destruct (krun bptree_backend (bkempty ht) (history segs)) as [[s rs']|] eqn:Eh; [|contradiction]. destruct O as [K _]. cbn [fst] in K.
  exists ht, s, rs'. split; [exact Ec|]. split; [exact Eh|].
  destruct (bkeys_ok (bk s) (bk t) b (proj1 K)) as (ks & S1 & S2 & S3).
  { destruct b as [[f|] la|p]; auto. apply (St_dom t l _ f S). exact Hbg. }
  exists ks. split; [exact S1|]. split.
  - intros k. rewrite S2. pose proof (St_dom t l _ k S). tauto.
  - intros edits fuel Fe L.
    apply (walk_ok bptree_backend RB RB_look RB_upd (fun b : bpt => root b) bshape_upd bpos biter_next bnext_ok fuel s t l (seg_run segs) (biter_create b) edits ks _ K S So Fe).
    apply S3. exact L.
Qed.
Lemma bptree_count order segs : (4 <= order)%nat -> Forall seg_ok segs ->
  bptree_store order (history segs) (fun s => exists ks, NoDup ks /\ (forall k, In k ks <-> seg_run segs k <> None) /\ bptree_entries s = N.of_nat (length ks) mod 2 ^ 64).
Proof.
  intros Hh F. destruct (segs_ok segs F) as (t & l & rs & E & S & A). destruct (bptree_start order Hh) as (ht & Ec & K0).
  pose proof (krun_rel bptree_backend RB RB_look RB_upd _ A _ _ K0) as O. rewrite E in O. fold (bkempty ht) in *.
  destruct (krun bptree_backend (bkempty ht) (history segs)) as [[s rs']|] eqn:Eh; [|contradiction]. destruct O as [K _]. cbn [fst] in K.
  exists ht, s, rs'. split; [exact Ec|]. split; [exact Eh|]. pose proof S as (Hb & _ & _ & Iv & _). destruct (proj1 K) as (zs & l' & (_ & (_ & _ & An) & _) & Ez & _).
  exists (map fst l). split; [|split].
  - apply Iv.
  - intros k. rewrite <- (St_dom t l _ k S), Hb, glookup_one. pose proof (alook_none k l) as An0. destruct (alook k l); cbn [option_map].
    + split; [discriminate|]. intros _. destruct (in_dec (list_eq_dec ascii_dec) k (map fst l)) as [H|H]; [exact H|]. apply An0 in H. discriminate.
    + split; [|intros H; exfalso; apply H; reflexivity]. intros H. exfalso. apply (proj1 An0); auto.
  - unfold bptree_entries, bptree_get_entry_count. rewrite An. unfold wrap64. rewrite map_length. do 2 f_equal. rewrite <- (map_length snd zs), Ez, Hb, map_length. reflexivity.
Qed.

(* Without edits *)
Lemma pair_det {B} (m : bytes -> option B) : forall l l' : list (bytes * B), map fst l = map fst l' ->
  (forall i k c, nth_error l i = Some (k, c) -> m k = Some c) -> (forall i k c, nth_error l' i = Some (k, c) -> m k = Some c) -> l = l'.
Proof.
  induction l as [|[k c] l IH]; intros [|[k' c'] l'] E H H'; try discriminate; [reflexivity|]. cbn [map fst] in E. injection E as <- E.
  pose proof (H O k c eq_refl) as A1. pose proof (H' O k c' eq_refl) as A2. rewrite A1 in A2. injection A2 as <-. f_equal. apply IH; [exact E| |].
  - intros i. apply (H (S i)).
  - intros i. apply (H' (S i)).
Qed.
Lemma visits_alone {BE I} (next : kv BE -> I -> outcome (I * (option bytes * option content))) s m it it' ks Q :
  visits next s m it it' ks -> NoDup ks -> (forall k, In k ks <-> m k <> None /\ Q k) ->
  exists l, covers m Q l /\ map fst l = ks /\ forall fuel, (length l < fuel)%nat -> walk next fuel s it [] = Ok (Some (l, s, it')).
Proof.
  intros V ND Hk.
  assert (A : forall fuel, (length ks < fuel)%nat -> exists l, walk next fuel s it [] = Ok (Some (l, s, it')) /\ map fst l = ks /\ forall i k c, nth_error l i = Some (k, c) -> m k = Some c).
  { intros fuel L. destruct (V [] fuel (Forall_nil _) L) as (l & s' & rs & W & E & Kr & H). rewrite firstn_nil in Kr. cbn [List.concat krun] in Kr. injection Kr as <- _.
    exists l. split; [exact W|]. split; [exact E|]. intros i k c Hi. specialize (H i k c Hi). rewrite firstn_nil in H. exact H. }
  destruct (A (S (length ks)) (Nat.lt_succ_diag_r _)) as (l & _ & E & Hv). exists l. split; [exact (covers_ok m Q l ks E ND Hk Hv)|]. split; [exact E|].
  intros fuel L. assert (Ll : length l = length ks) by (rewrite <- E, map_length; reflexivity). destruct (A fuel ltac:(lia)) as (l' & W' & E' & Hv').
  rewrite W'. rewrite (pair_det m l' l) by (assumption || congruence). reflexivity.
Qed.
Lemma store_both order ops P Q : bptree_store order ops P -> bptree_store order ops Q -> bptree_store order ops (fun s => P s /\ Q s).
Proof. intros (t & s & rs & E & K & H) (t' & s' & rs' & E' & K' & H'). rewrite E in E'. injection E' as <-. rewrite K in K'. injection K' as <- <-. exists t, s, rs. auto. Qed.

Lemma iter_exact hint order segs b : hint <= 2 ^ 31 -> (4 <= order)%nat -> Forall seg_ok segs -> solid (seg_run segs) -> begins (seg_run segs) b ->
  hash_store hint (history segs) (fun s => exists l, covers (seg_run segs) (fun _ => True) l /\ hash_entries s = N.of_nat (length l) mod 2 ^ 32 /\
    forall fuel, (length l < fuel)%nat -> walk hiter_next fuel s (hiter_create b) [] = Ok (Some (l, s, hiter_create b))) /\
  bptree_store order (history segs) (fun s => exists l, covers (seg_run segs) (within b) l /\ in_order l /\
    forall fuel, (length l < fuel)%nat -> walk biter_next fuel s (biter_create b) [] = Ok (Some (l, s, biter_create b))).
Proof.
  intros H1 H2 F So Hb. split.
  - destruct (hash_visits hint segs b H1 F So) as (t & s & rs & E & K & ks & ND & Hk & Hn & V). exists t, s, rs. split; [exact E|]. split; [exact K|].
    destruct (visits_alone hiter_next s _ _ _ ks (fun _ => True) V ND) as (l & C & Em & W); [intros k; rewrite Hk; tauto|]. exists l. split; [exact C|]. split; [|exact W].
    rewrite Hn, <- Em, map_length. reflexivity.
  - destruct (bptree_visits order segs b H2 F So Hb) as (t & s & rs & E & K & ks & Ss & Hk & V). exists t, s, rs. split; [exact E|]. split; [exact K|].
    destruct (visits_alone biter_next s _ _ _ ks (within b) V (sorted_nodup _ Ss) Hk) as (l & C & Em & W). exists l. split; [exact C|]. split; [|exact W].
    unfold in_order. rewrite Em. exact Ss.
Qed.
Lemma iter_edits hint order segs b : hint <= 2 ^ 31 -> (4 <= order)%nat -> Forall seg_ok segs -> solid (seg_run segs) -> begins (seg_run segs) b ->
  hash_store hint (history segs) (fun s => exists ks, NoDup ks /\ (forall k, In k ks <-> seg_run segs k <> None) /\ visits hiter_next s (seg_run segs) (hiter_create b) (hiter_create b) ks) /\
  bptree_store order (history segs) (fun s => exists ks, Sorted.StronglySorted str_lt ks /\ (forall k, In k ks <-> seg_run segs k <> None /\ within b k) /\
    visits biter_next s (seg_run segs) (biter_create b) (biter_create b) ks).
Proof.
  intros H1 H2 F So Hb. split; [|apply bptree_visits; assumption].
  destruct (hash_visits hint segs b H1 F So) as (t & s & rs & E & K & ks & ND & Hk & Hn & V). exists t, s, rs. split; [exact E|]. split; [exact K|]. exists ks. auto.
Qed.
