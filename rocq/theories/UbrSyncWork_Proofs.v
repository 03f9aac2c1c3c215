From Coq Require Import Sorted Permutation.
From Verif Require Import Base Tok_Model Kvs_Model UbrKey_Model UbrKey_Spec UbrKey_Proofs UbrDb_Model UbrPerm_Spec UbrPerm_Proofs
  UbrDelta_Model UbrDelta_Spec UbrDelta_Proofs UbrRec_Model UbrSync_Model UbrSync_Spec UbrSync_Proofs.
Local Open Scope nat_scope.
Local Notation concat := List.concat (only parsing).

(* Several messages *)
Lemma syncs_lemma ls : forall d, sane (recs d) -> Forall in_order ls ->
  exists d', syncs d ls d' /\ effects (recs d) (concat ls) (recs d') /\ sane (recs d').
Proof.
  induction ls as [|l ls IH]; intros d S F.
  - exists d. split; [constructor|]. split; [constructor; reflexivity|exact S].
  - inversion F as [|? ? Fl Fs]; subst. destruct (sync_lemma d l S Fl) as (d1 & E1 & G1 & S1). destruct (IH d1 S1 Fs) as (d2 & E2 & G2 & S2).
    exists d2. split; [econstructor; eassumption|]. split; [cbn [List.concat]; eapply effects_app; eassumption|exact S2].
Qed.
Lemma syncs_fun d ls d1 : syncs d ls d1 -> forall d2, syncs d ls d2 -> d1 = d2.
Proof.
  induction 1 as [d|d d' d'' l ls E R IH]; intros d2 H; inversion H; subst; [reflexivity|]. apply IH. congruence.
Qed.
Lemma change_key op k r : change op k r -> forall k', op = OP_PLUS /\ s_key r = "+"%char :: k /\ (s_key r = "+"%char :: k' <-> k' = k) /\ (s_key r = "-"%char :: k' <-> False)
   \/ op = OP_MINUS /\ s_key r = "-"%char :: k /\ (s_key r = "-"%char :: k' <-> k' = k) /\ (s_key r = "+"%char :: k' <-> False).
Proof.
  intros (_ & _ & C) k'. destruct op; [contradiction|left|right]; (split; [reflexivity|]); (split; [exact C|]); rewrite C; split; split; intros H; try discriminate H; try contradiction; congruence.
Qed.
Lemma cons_added r l k x : added (r :: l) k x <-> (s_key r = "+"%char :: k /\ In x (r_data (s_rec r))) \/ added l k x.
Proof.
  split.
  - intros (r' & [<-|H] & K & I); [left; auto|right; exists r'; auto].
  - intros [(K & I)|(r' & H & K & I)]; [exists r; cbn; auto|exists r'; cbn; auto].
Qed.
Lemma cons_removed r l k x : removed (r :: l) k x <-> (s_key r = "-"%char :: k /\ In x (r_data (s_rec r))) \/ removed l k x.
Proof.
  split.
  - intros (r' & [<-|H] & K & I); [left; auto|right; exists r'; auto].
  - intros [(K & I)|(r' & H & K & I)]; [exists r; cbn; auto|exists r'; cbn; auto].
Qed.
Lemma main_not_delta k : main_key k -> forall c t, c <> ":"%char -> k <> c :: t.
Proof. intros M c t N ->. unfold main_key in M. cbn in M. congruence. Qed.
Lemma effects_list m l m' : effects m l m' -> forall k, main_key k -> (forall r, In r l -> s_key r <> k) ->
  forall x, ~ (added l k x /\ removed l k x) -> (In x (listed m' k) <-> (In x (listed m k) /\ ~ removed l k x) \/ added l k x).
Proof.
  induction 1 as [m m' E|m m1 m' r l Mr He Hl IH|m m1 m' op k1 r l Hc He Hl IH]; intros k Mk Np x Nc.
  - unfold listed. rewrite E. assert (A : ~ added [] k x) by (intros (r & [] & _)). assert (R : ~ removed [] k x) by (intros (r & [] & _)). tauto.
  - rewrite cons_added, cons_removed in *.
    assert (A1 : s_key r <> "+"%char :: k) by (apply (main_not_delta _ Mr); discriminate). assert (A2 : s_key r <> "-"%char :: k) by (apply (main_not_delta _ Mr); discriminate).
    rewrite (IH k Mk (fun r' H => Np r' (or_intror H)) x ltac:(tauto)).
    assert (E : m1 k = m k). { apply He; [intros ->; exact (Np r (or_introl eq_refl) eq_refl)|intros ->; exact (arch_not_main _ Mk)]. }
    unfold listed. rewrite E. tauto.
  - pose proof (change_key _ _ _ Hc k) as Ck. rewrite cons_added, cons_removed in *. destruct He as (E1 & l' & E2 & _ & E3).
    destruct (list_eq_dec ascii_dec k k1) as [->|Nk].
    + assert (Q : In x (listed m1 k1) <-> result op (listed m k1) (r_data (s_rec r)) x) by (unfold listed at 1; rewrite E2; apply E3).
      destruct Ck as [(-> & _ & C1 & C2)|(-> & _ & C1 & C2)]; cbn [result] in Q; rewrite C1, C2 in *.
      all: rewrite (IH k1 Mk (fun r' H => Np r' (or_intror H)) x ltac:(tauto)), Q; tauto.
    + rewrite (IH k Mk (fun r' H => Np r' (or_intror H)) x).
      * unfold listed. rewrite E1 by exact Nk. destruct Ck as [(-> & _ & C1 & C2)|(-> & _ & C1 & C2)]; rewrite C1, C2; tauto.
      * destruct Ck as [(-> & _ & C1 & C2)|(-> & _ & C1 & C2)]; rewrite C1, C2 in Nc; tauto.
Qed.

(* C55: any order of messages *)
Lemma concat_perm (ls ls' : list (list srec)) : Permutation ls ls' -> forall r, In r (concat ls) <-> In r (concat ls').
Proof.
  intros P r. rewrite !in_concat. split; intros (l & H & I); exists l; (split; [|exact I]); [apply (Permutation_in _ P H)|apply (Permutation_in _ (Permutation_sym P) H)].
Qed.
Lemma merge_lemma d ls ls' : sane (recs d) -> Forall in_order ls -> Permutation ls ls' ->
  exists d', syncs d ls' d' /\ forall k, main_key k -> (forall r, In r (concat ls) -> s_key r <> k) ->
    forall x, ~ (added (concat ls) k x /\ removed (concat ls) k x) ->
    (In x (members d' k) <-> (In x (members d k) /\ ~ removed (concat ls) k x) \/ added (concat ls) k x).
Proof.
  intros S F P. assert (F' : Forall in_order ls') by (apply Forall_forall; intros l H; rewrite Forall_forall in F; apply F, (Permutation_in _ (Permutation_sym P) H)).
  destruct (syncs_lemma ls' d S F') as (d' & E & G & _). exists d'. split; [exact E|]. intros k Mk Np x Nc.
  pose proof (concat_perm _ _ P) as C.
  assert (A : added (concat ls) k x <-> added (concat ls') k x) by (split; intros (r & H & K); exists r; (split; [apply C, H|exact K])).
  assert (R : removed (concat ls) k x <-> removed (concat ls') k x) by (split; intros (r & H & K); exists r; (split; [apply C, H|exact K])).
  rewrite A, R in *. apply (effects_list _ _ _ G k Mk); [intros r H; apply Np, C, H|exact Nc].
Qed.

(* C57 *)
Lemma may_same o : may_write o (r_owner o).
Proof.
  intros m Hm. destruct (list_eq_dec ascii_dec (r_owner o) (B "/")) as [E|N].
  - rewrite E in Hm at 2. rewrite (stands_fun _ _ _ _ Hm (St_core _)). exact I.
  - rewrite (stands_fun _ _ _ _ Hm (St_same _ N)). exact I.
Qed.
Definition cand (m : store) (l : list srec) (k : bytes) (v : rec) : Prop := m k = Some v \/ writes l k v.
Lemma cons_writes r l k v : writes (r :: l) k v <-> (s_key r = k /\ s_rec r = v) \/ writes l k v.
Proof.
  split.
  - intros (r' & [<-|H] & K & I); [left; auto|right; exists r'; auto].
  - intros [(K & I)|(r' & H & K & I)]; [exists r; cbn; auto|exists r'; cbn; auto].
Qed.
Lemma newest_effects m l m' : effects m l m' -> forall k o, main_key k ->
  (forall r, In r l -> s_key r = k -> ~ removal r /\ r_owner (s_rec r) = o /\ r_seq (s_rec r) <> 0%N) ->
  (forall op r, In r l -> ~ change op k r) -> (forall v, m k = Some v -> r_owner v = o) ->
  match m' k with Some v => cand m l k v /\ (forall w, cand m l k w -> (r_seq w <= r_seq v)%N) | None => forall w, ~ cand m l k w end.
Proof.
  induction 1 as [m m' E|m m1 m' r l Mr He Hl IH|m m1 m' op k1 r l Hc He Hl IH]; intros k o Mk Hw Hn Ho.
  - rewrite E. assert (W : forall v, ~ writes [] k v) by (intros v (r & [] & _)). unfold cand. destruct (m k) as [v|].
    + split; [auto|]. intros w [H|H]; [|destruct (W _ H)]. assert (w = v) by congruence. subst. lia.
    + intros w [H|H]; [discriminate H|exact (W _ H)].
  - specialize (IH k o Mk (fun r' H => Hw r' (or_intror H)) (fun op r' H => Hn op r' (or_intror H))).
    destruct (list_eq_dec ascii_dec (s_key r) k) as [<-|Nk].
    + destruct (Hw r (or_introl eq_refl) eq_refl) as (Nr & Or & Zr). destruct He as (_ & E2 & _ & E4 & _).
      assert (D : (m1 (s_key r) = Some (s_rec r) /\ forall w, m (s_key r) = Some w -> (r_seq w <= r_seq (s_rec r))%N)
                  \/ (m1 (s_key r) = m (s_key r) /\ exists w, m (s_key r) = Some w /\ (r_seq (s_rec r) <= r_seq w)%N)).
      { destruct (m (s_key r)) as [w|] eqn:Em; cbn [accepts] in E2, E4.
        - assert (Wm : may_write w (r_owner (s_rec r))) by (rewrite Or, <- (Ho w eq_refl); apply may_same).
          destruct (N.le_gt_cases (r_seq w) (r_seq (s_rec r))) as [L|L].
          + left. split; [apply E4; tauto|]. intros w' Ew. assert (w' = w) by congruence. subst. exact L.
          + right. split; [apply E2; intros (H & _); lia|]. exists w. split; [reflexivity|lia].
        - left. split; [apply E4; tauto|]. discriminate. }
      assert (Ho1 : forall v, m1 (s_key r) = Some v -> r_owner v = o).
      { intros v Ev. destruct D as [(D & _)|(D & _)]; rewrite D in Ev; [congruence|apply Ho, Ev]. }
      specialize (IH Ho1). unfold cand in *.
      assert (Q : forall w, (m (s_key r) = Some w \/ writes (r :: l) (s_key r) w) <-> (m (s_key r) = Some w \/ s_rec r = w \/ writes l (s_key r) w)) by (intros w; rewrite cons_writes; tauto).
      destruct (m' (s_key r)) as [v|].
      * destruct IH as (C & X). split.
        -- apply Q. destruct D as [(D & _)|(D & _)]; rewrite D in C; destruct C as [C|C]; auto. right; left; congruence.
        -- intros w Hw'. apply Q in Hw'. destruct D as [(D & D2)|(D & w0 & D2 & D3)]; rewrite D in X.
           ++ pose proof (X _ (or_introl eq_refl)). destruct Hw' as [H1|[<-|H1]]; [specialize (D2 _ H1); lia|lia|auto].
           ++ pose proof (X _ (or_introl D2)). destruct Hw' as [H1|[<-|H1]]; [auto|lia|auto].
      * intros w _. destruct D as [(D & _)|(D & w0 & D2 & _)]; [exact (IH _ (or_introl D))|rewrite D in IH; exact (IH _ (or_introl D2))].
    + assert (E : m1 k = m k) by (apply He; [congruence|intros ->; exact (arch_not_main _ Mk)]).
      rewrite E in IH. specialize (IH Ho). unfold cand in *. rewrite E in IH.
      destruct (m' k) as [v|].
      * destruct IH as (C & X). rewrite cons_writes. split; [tauto|]. intros w. rewrite cons_writes. intros H1. apply X. tauto.
      * intros w. rewrite cons_writes. intros H1. apply (IH w). tauto.
  - specialize (IH k o Mk (fun r' H => Hw r' (or_intror H)) (fun op r' H => Hn op r' (or_intror H))).
    assert (Nk : k <> k1) by (intros ->; exact (Hn op r (or_introl eq_refl) Hc)).
    assert (Nr : s_key r <> k) by (destruct (change_key _ _ _ Hc k) as [(_ & E & _)|(_ & E & _)]; rewrite E; intros <-; discriminate Mk).
    assert (E : m1 k = m k) by (apply He, Nk). rewrite E in IH. specialize (IH Ho). unfold cand in *. rewrite E in IH.
    destruct (m' k) as [v|].
    + destruct IH as (C & X). rewrite cons_writes. split; [tauto|]. intros w. rewrite cons_writes. intros H1. apply X. tauto.
    + intros w. rewrite cons_writes. intros H1. apply (IH w). tauto.
Qed.
Lemma newest_lemma d ls k o d' : sane (recs d) -> Forall in_order ls -> main_key k -> only_values ls k o -> (forall v, recs d k = Some v -> r_owner v = o) -> syncs d ls d' ->
  match recs d' k with
  | Some v => (recs d k = Some v \/ writes (concat ls) k v) /\ (forall w, recs d k = Some w \/ writes (concat ls) k w -> (r_seq w <= r_seq v)%N)
  | None => recs d k = None /\ forall w, ~ writes (concat ls) k w
  end.
Proof.
  intros S F Mk (H1 & H2) Ho R. destruct (syncs_lemma ls d S F) as (d2 & E & G & _). rewrite (syncs_fun _ _ _ R _ E).
  pose proof (newest_effects _ _ _ G k o Mk H1 H2 Ho) as N. unfold cand in N. destruct (recs d2 k); [exact N|]. split.
  - destruct (recs d k) as [w|]; [destruct (N w); auto|reflexivity].
  - intros w H. apply (N w). auto.
Qed.
Lemma any_order_lemma d ls ls' k o d1 d2 : sane (recs d) -> Forall in_order ls -> main_key k -> only_values ls k o -> (forall v, recs d k = Some v -> r_owner v = o) ->
  (forall v w, recs d k = Some v \/ writes (concat ls) k v -> recs d k = Some w \/ writes (concat ls) k w -> r_seq v = r_seq w -> v = w) ->
  Permutation ls ls' -> syncs d ls d1 -> syncs d ls' d2 -> recs d1 k = recs d2 k.
Proof.
  intros S F Mk V Ho U P R1 R2. pose proof (concat_perm _ _ P) as C.
  assert (F' : Forall in_order ls') by (apply Forall_forall; intros l H; rewrite Forall_forall in F; apply F, (Permutation_in _ (Permutation_sym P) H)).
  assert (V' : only_values ls' k o). { destruct V as (V1 & V2). split; intros; [apply V1|eapply V2]; try assumption; apply C; eassumption. }
  assert (W : forall v, writes (concat ls) k v <-> writes (concat ls') k v) by (intros v; split; intros (r & H & K); exists r; (split; [apply C, H|exact K])).
  pose proof (newest_lemma d ls k o d1 S F Mk V Ho R1) as N1. pose proof (newest_lemma d ls' k o d2 S F' Mk V' Ho R2) as N2.
  destruct (recs d1 k) as [v|], (recs d2 k) as [w|].
  - destruct N1 as (C1 & X1), N2 as (C2 & X2). rewrite <- W in C2. f_equal. apply U; [exact C1|exact C2|]. pose proof (X1 _ C2). rewrite W in C1. pose proof (X2 _ C1). lia.
  - destruct N1 as ([C1|C1] & _), N2 as (N2 & N3); [congruence|]. apply W in C1. destruct (N3 _ C1).
  - destruct N2 as ([C1|C1] & _), N1 as (N2 & N3); [congruence|]. apply W in C1. destruct (N3 _ C1).
  - reflexivity.
Qed.
Lemma effects_split a : forall m b m', effects m (a ++ b) m' -> exists m1, effects m a m1 /\ effects m1 b m'.
Proof.
  induction a as [|r a IH]; intros m b m' H; cbn [app] in H.
  - exists m. split; [constructor; reflexivity|exact H].
  - inversion H as [|? m1 ? ? ? M P R|? m1 ? op k ? ? C P R]; subst; destruct (IH _ _ _ R) as (m2 & H1 & H2); exists m2; (split; [|exact H2]); [eapply Ef_plain|eapply Ef_change]; eassumption.
Qed.
Lemma untouched m l m' : effects m l m' -> forall k, main_key k -> (forall r, In r l -> s_key r <> k) -> (forall op r, In r l -> ~ change op k r) -> m' k = m k.
Proof.
  induction 1 as [m m' E|m m1 m' r l Mr He Hl IH|m m1 m' op k1 r l Hc He Hl IH]; intros k Mk Hw Hn.
  - apply E.
  - rewrite (IH k Mk (fun r' H => Hw r' (or_intror H)) (fun op r' H => Hn op r' (or_intror H))). apply He; [intros ->; exact (Hw r (or_introl eq_refl) eq_refl)|intros ->; exact (arch_not_main _ Mk)].
  - rewrite (IH k Mk (fun r' H => Hw r' (or_intror H)) (fun op r' H => Hn op r' (or_intror H))). apply He. intros ->. exact (Hn op r (or_introl eq_refl) Hc).
Qed.
Lemma change_not_main op k r : change op k r -> ~ main_key (s_key r).
Proof. intros C M. destruct (change_key _ _ _ C k) as [(_ & E & _)|(_ & E & _)]; rewrite E in M; discriminate M. Qed.
Lemma once_effects ps : forall m m' k o v, effects m ps m' -> main_key k -> Forall (fun r => main_key (s_key r)) ps -> NoDup (map s_key ps) -> (forall r, In r ps -> no_nul (r_owner (s_rec r))) -> no_nul (r_owner o) ->
  m k = Some o -> m' k = Some v -> v = o \/ (writes ps k v /\ (r_seq v = 0%N \/ (r_seq o <= r_seq v)%N) /\ may_write o (r_owner v)).
Proof.
  induction ps as [|r ps IH]; intros m m' k o v He Mk Hm Hn Ho On Ek Ek'; inversion He as [? ? E|? m1 ? ? ? M P R|? m1 ? op k1 ? ? C P R]; subst.
  - left. rewrite E in Ek'. congruence.
  - inversion Hm as [|? ? Mr Ms]; subst. inversion Hn as [|? ? Nr Ns]; subst.
    destruct (list_eq_dec ascii_dec (s_key r) k) as [<-|Nk].
    + assert (U : m' (s_key r) = m1 (s_key r)).
      { apply (untouched _ _ _ R); [exact Mr| |].
        - intros r' H E. apply Nr. rewrite <- E. apply in_map, H.
        - intros op r' H C. apply (change_not_main _ _ _ C). rewrite Forall_forall in Ms. apply Ms, H. }
      rewrite U in Ek'. destruct P as (_ & P2 & P3 & P4 & _). rewrite Ek in P2, P3, P4. cbn [accepts] in P2, P3, P4.
      assert (On' : forall o', Some o = Some o' -> no_nul (r_owner o')) by (intros o' Eo; assert (o' = o) by congruence; subst; exact On).
      destruct (accepts_dec (Some o) (r_owner (s_rec r)) (r_seq (s_rec r)) On' (Ho r (or_introl eq_refl))) as [A|A]; cbn [accepts] in A.
      * destruct (removal_dec r) as [Rm|Rm]; [rewrite P3 in Ek' by assumption; discriminate Ek'|]. rewrite P4 in Ek' by assumption. right.
        assert (v = s_rec r) by congruence. subst v. split; [exists r; cbn; auto|exact A].
      * left. rewrite P2 in Ek' by exact A. congruence.
    + assert (E : m1 k = m k) by (apply P; [congruence|intros ->; exact (arch_not_main _ Mk)]).
      rewrite <- E in Ek. destruct (IH m1 m' k o v R Mk Ms Ns (fun r' H => Ho r' (or_intror H)) On Ek Ek') as [H|(H & Q)]; [left; exact H|right].
      split; [rewrite cons_writes; auto|exact Q].
  - inversion Hm as [|? ? Mr Ms]; subst. destruct (change_not_main _ _ _ C Mr).
Qed.
Lemma older_lemma d l d' k o v : sane (recs d) -> in_order l -> main_key k -> (forall op r, In r l -> ~ change op k r) -> sync_main d l = Ok d' ->
  recs d k = Some o -> recs d' k = Some v -> v = o \/ (writes l k v /\ (r_seq v = 0%N \/ (r_seq o <= r_seq v)%N) /\ may_write o (r_owner v)).
Proof.
  intros S O Mk Hn E Ek Ek'. destruct (sync_lemma d l S O) as (d2 & E2 & G & _). assert (d2 = d') by congruence. subst d2.
  destruct O as ((ds & ps & -> & Hd & Hp & Nd) & Hs). destruct (effects_split ds _ _ _ G) as (m1 & G1 & G2).
  assert (U : m1 k = recs d k).
  { apply (untouched _ _ _ G1 k Mk).
    - intros r H <-. rewrite Forall_forall in Hd. destruct (Hd r H) as ((op & k1 & C) & _). exact (change_not_main _ _ _ C Mk).
    - intros op r H. apply Hn, in_or_app. auto. }
  rewrite <- U in Ek. apply Forall_app in Hs as (_ & Hs).
  destruct (once_effects ps m1 (recs d') k o v G2 Mk Hp Nd) as [H|(H & Q)]; try assumption.
  - intros r H. rewrite Forall_forall in Hs. apply Hs, H.
  - rewrite U in Ek. apply (proj2 S k o Ek).
  - left; exact H.
  - right. split; [|exact Q]. destruct H as (r & H1 & H2). exists r. split; [apply in_or_app; auto|exact H2].
Qed.
Lemma tombstone_lemma d r1 r2 : sane (recs d) -> main_key (s_key r1) -> s_key r2 = s_key r1 -> sorted (r_data (s_rec r2)) -> no_nul (r_owner (s_rec r1)) -> no_nul (r_owner (s_rec r2)) ->
  removal r1 -> accepts (recs d (s_key r1)) (r_owner (s_rec r1)) (r_seq (s_rec r1)) -> ~ removal r2 ->
  exists d1 d2, sync_main d [r1] = Ok d1 /\ recs d1 (s_key r1) = None /\ sync_main d1 [r2] = Ok d2 /\ recs d2 (s_key r1) = Some (s_rec r2).
Proof.
  intros S M K Sd N1 N2 R A V.
  assert (One : forall r, main_key (s_key r) -> sorted (r_data (s_rec r)) -> no_nul (r_owner (s_rec r)) -> in_order [r]).
  { intros r Mr Sr Nr. split; [|repeat constructor; assumption]. exists [], [r]. split; [reflexivity|]. split; [constructor|]. split; [repeat constructor; exact Mr|]. repeat constructor. intros []. }
  destruct (sync_lemma d [r1] S (One r1 M ltac:(rewrite (proj1 R); constructor) N1)) as (d1 & E1 & G1 & S1).
  assert (M2 : main_key (s_key r2)) by (rewrite K; exact M).
  destruct (sync_lemma d1 [r2] S1 (One r2 M2 Sd N2)) as (d2 & E2 & G2 & S2).
  assert (X1 : recs d1 (s_key r1) = None).
  { inversion G1 as [|? m1 ? ? ? _ P Q|? m1 ? op k ? ? C _ _]; subst; [|destruct (change_not_main _ _ _ C M)]. inversion Q; subst. rewrite H. apply P; assumption. }
  exists d1, d2. split; [exact E1|]. split; [exact X1|]. split; [exact E2|].
  inversion G2 as [|? m1 ? ? ? _ P Q|? m1 ? op k ? ? C _ _]; subst; [|destruct (change_not_main _ _ _ C M2)]. inversion Q; subst. rewrite H, <- K. apply P; [|exact V]. rewrite K, X1. exact I.
Qed.

(* C58: what goes wrong *)
Lemma trans_unset_rel st k o s a : s_rel (trans_unset st k o s a) = s_rel st.
Proof. unfold trans_unset. cbv zeta. destruct (main_unset _ _ _); reflexivity. Qed.
Lemma plain_rel st r st' : main_key (s_key r) -> removal r \/ ~ keeps_archive r -> sync_step st r = Ok st' -> s_rel st' = false.
Proof.
  intros M C. unfold sync_step. cbv zeta. replace (if s_vec r then get_op_from_key (s_key r) else OP_SET) with OP_SET by (destruct (s_vec r); [symmetry; apply main_op, M|reflexivity]).
  pose proof (unset_bool r) as U. match type of U with ?u = true <-> _ => destruct u eqn:Eu end.
  - intros E. destruct (has (r_flags (s_rec r)) FL_AR); apply (f_equal (fun o => match o with Ok s => s_rel s | UB => true end)) in E; cbn beta iota in E; rewrite ?trans_unset_rel in E; symmetry; exact E.
  - destruct C as [C|C]; [apply U in C; discriminate C|]. unfold keeps_archive in C.
    rewrite has_AR. destruct (N.testbit (r_flags (s_rec r)) 3); [contradiction C; reflexivity|].
    intros E. apply (f_equal (fun o => match o with Ok s => s_rel s | UB => true end)) in E; cbn beta iota in E. rewrite trans_unset_rel in E. symmetry. exact E.
Qed.
Lemma change_ub st r op k : change op k r -> s_rel st = false -> ~ removal r -> sync_step st r = UB.
Proof.
  intros C Rl Nr. destruct (change_op op k r C) as (Eo & Ek & No). pose proof (unset_bool r) as U. destruct C as (V & _). unfold sync_step. cbv zeta. rewrite V, Eo in *.
  match type of U with ?u = true <-> _ => destruct u eqn:Eu end; [destruct Nr; apply U; reflexivity|]. rewrite Rl. destruct op; [contradiction|reflexivity..].
Qed.
Lemma plain_then_change d r1 r2 l op k : main_key (s_key r1) -> removal r1 \/ ~ keeps_archive r1 -> change op k r2 -> ~ removal r2 -> sync_main d (r1 :: r2 :: l) = UB.
Proof.
  intros M C1 C2 Nr. unfold sync_main. cbn [sync_steps]. destruct (sync_step (Sst d [] true) r1) as [st|] eqn:E; [|reflexivity]. cbn [obind].
  rewrite (change_ub st r2 op k C2 (plain_rel _ _ _ M C1 E) Nr). reflexivity.
Qed.
Lemma emptying_step st k r : empties (recs (s_db st)) k r -> sorted (listed (recs (s_db st)) k) -> s_rel st = true ->
  exists d, sync_step st r = Ok (Sst d (s_unset st ++ [k]) false).
Proof.
  intros (C & Ow & Rs & Sn & Ne & Al) So Rl. destruct (change_op _ _ _ C) as (Eo & Ek & _). destruct C as (V & Mk & _).
  unfold sync_step. cbv zeta. rewrite V, Eo, Ek, has_RS, Rs. cbn [negb andb].
  destruct (r_data (s_rec r)) as [|i t] eqn:Ed; [contradiction Ne; reflexivity|]. rewrite <- Ed in *. cbn match.
  rewrite Rl, (main_canon k Mk). cbn [negb].
  destruct (write_change (s_db st) k (Hdr (r_seq (s_rec r)) (r_flags (s_rec r)) (r_gen (s_rec r)) (r_owner (s_rec r))) OP_MINUS (r_data (s_rec r)) Ow Sn So)
    as (d & s & f & E & F & G1 & G2 & G3 & G4). rewrite E, F.
  destruct (items f) as [|y l]; [|destruct (proj1 (G4 y) (or_introl eq_refl)) as (H1 & H2); destruct H2; apply Al, H1].
  exists d. unfold trans_unset, set_rel. cbv zeta. cbn [s_db s_unset s_rel]. rewrite (main_canon k Mk), G2. unfold main_unset. cbn [r_seq h_seq]. rewrite N.leb_refl, orb_true_r. cbn [andb].
  rewrite Ow. pose proof (core_allowed (Some (Rec (r_seq (s_rec r)) (r_flags (s_rec r)) (r_gen (s_rec r)) (B "/") []))) as A. change OWNER_CORE with (B "/") in A.
  cbn [h_seq h_flags h_gen h_owner]. rewrite ?Ow. apply Z.ltb_ge in A. apply Z.leb_le in A. rewrite A. unfold with_recs. destruct d; reflexivity.
Qed.
Lemma emptied_then_change d k r1 r2 l op k' : sane (recs d) -> empties (recs d) k r1 -> change op k' r2 -> ~ removal r2 -> sync_main d (r1 :: r2 :: l) = UB.
Proof.
  intros S C1 C2 Nr. unfold sync_main. cbn [sync_steps]. destruct (emptying_step (Sst d [] true) k r1 C1 (proj1 S k (proj1 (proj2 (proj1 C1)))) eq_refl) as (d1 & E). rewrite E. cbn [obind].
  rewrite (change_ub (Sst d1 _ false) r2 op k' C2 eq_refl Nr). reflexivity.
Qed.
Lemma trans_unset_incl st k o s a : incl (s_unset st) (s_unset (trans_unset st k o s a)).
Proof. unfold trans_unset. cbv zeta. destruct (main_unset _ _ _); cbn [s_unset]; [apply incl_appl, incl_refl|apply incl_refl]. Qed.
Lemma plain_total st r : main_key (s_key r) -> exists st', sync_step st r = Ok st' /\ incl (s_unset st) (s_unset st').
Proof.
  intros M. unfold sync_step. cbv zeta. replace (if s_vec r then get_op_from_key (s_key r) else OP_SET) with OP_SET by (destruct (s_vec r); [symmetry; apply main_op, M|reflexivity]).
  match goal with |- context [if (if s_vec r then ?a else ?b) then _ else _] => destruct (if s_vec r then a else b) end.
  - eexists; split; [reflexivity|]. destruct (has _ _).
    + exact (trans_unset_incl (set_rel st false) _ _ _ _).
    + intros x Hx. apply trans_unset_incl. apply trans_unset_incl. exact Hx.
  - eexists; split; [reflexivity|]. destruct (has _ _), (main_set _ _); try apply incl_refl; intros x Hx; apply trans_unset_incl; exact Hx.
Qed.
Lemma emptied_then_set d k r1 r2 : sane (recs d) -> empties (recs d) k r1 -> main_key (s_key r2) -> exists d', sync_main d [r1; r2] = Ok d' /\ recs d' k = None.
Proof.
  intros S C1 M. unfold sync_main. cbn [sync_steps]. destruct (emptying_step (Sst d [] true) k r1 C1 (proj1 S k (proj1 (proj2 (proj1 C1)))) eq_refl) as (d1 & E). rewrite E. cbn [obind].
  destruct (plain_total (Sst d1 [k] false) r2 M) as (st & E2 & I). change (s_unset (Sst d [] true) ++ [k]) with [k]. rewrite E2. cbn [obind].
  exists (commit st). split; [reflexivity|]. apply view_in. apply I. left. reflexivity.
Qed.
Lemma refused_change d k op r l o : sane (recs d) -> change op k r -> ~ removal r -> no_nul (r_owner (s_rec r)) -> recs d k = Some o -> ~ may_write o (r_owner (s_rec r)) -> sync_main d (r :: l) = UB.
Proof.
  intros S C Nr Nn Eo Nw. destruct (change_op op k r C) as (Eop & Ek & No). pose proof (unset_bool r) as U. destruct C as (V & Mk & _).
  unfold sync_main. cbn [sync_steps]. unfold sync_step. cbv zeta. rewrite V, Eop in *.
  match type of U with ?u = true <-> _ => destruct u eqn:Eu end; [destruct Nr; apply U; reflexivity|]. cbn [s_rel negb].
  assert (Ekey : match op with OP_SET => s_key r | _ => skipn 1 (s_key r) end = k) by (destruct op; [contradiction|exact Ek..]).
  rewrite Ekey, (main_canon k Mk). cbn [s_db]. unfold delta_write. rewrite Eo. cbn [h_owner].
  pose proof (proj2 (wr_lemma o (r_owner (s_rec r)) (proj2 S k o Eo) Nn) Nw) as W.
  assert (L : (check_kv_wr_allowed (Some o) (r_owner (s_rec r)) <? 0)%Z = true).
  { rewrite W. destruct (N.testbit (r_flags o) 4); [reflexivity|]. rewrite (may_write_match o _ (proj2 S k o Eo) Nn) in Nw. clear W.
    destruct (mod_match (r_owner o) (r_owner (s_rec r))); cbn [write_bit read_bit granted] in *; try (destruct (Nw I)); destruct (N.testbit _ _); reflexivity. }
  rewrite L. destruct op; [contradiction|reflexivity..].
Qed.

(* What operations on groups do to the store and to its index *)
Definition list_spec (s : key_spec) : Prop := plain s /\ (ks_core s = Some K_MEMBERS \/ ks_core s = Some K_IN).
Lemma list_spec_key s : list_spec s -> list_key (store_key s).
Proof.
  intros (P & C). split; [apply (store_plain s P)|]. exists (compose_key_prefix s). rewrite (store_prefix s P). destruct C as [->| ->]; [left|right]; reflexivity.
Qed.
Inductive moves (mg : bool) : db -> db -> Prop :=
| Mv_refl : forall d, moves mg d d
| Mv_list : forall d d1 d2 k, list_key k -> (forall x, x <> k -> recs d1 x = recs d x) -> indexed d1 = indexed d -> moves mg d1 d2 -> moves mg d d2
| Mv_abs : forall d d2 c k h b, In c [PL; MI] -> list_key k -> h_owner h = OWNER_CORE -> (mg = true -> N.testbit (h_flags h) 4 = true) ->
    moves mg (store_abs d (c :: k) h b) d2 -> moves mg d d2
| Mv_create : forall d u owner dom ns fl cat id d2, (mg = true -> N.testbit fl 1 = false) -> moves mg (fst (group_create d u owner dom ns fl cat id)) d2 -> moves mg d d2.
Lemma moves_trans mg d d1 : moves mg d d1 -> forall d2, moves mg d1 d2 -> moves mg d d2.
Proof. induction 1; intros dz Hz; [exact Hz|eapply Mv_list|eapply Mv_abs|eapply Mv_create]; eauto. Qed.
Lemma write_moves mg d k h op new d' c s : list_key k -> delta_write d k h op new false = DOk (d', c, s) -> moves mg d d'.
Proof.
  intros L. unfold delta_write. destruct (_ <? 0)%Z; [intros E; assert (d' = d) by congruence; subst; constructor|].
  destruct (delta_step_calc _ _ _) as [s'| |]; [|intros E; assert (d' = d) by congruence; subst; constructor|discriminate].
  destruct (d_final s') as [f|]; intros E; [|assert (d' = d) by congruence; subst; constructor].
  assert (d' = Db (put (recs d) k (Some (rec_with h (items f)))) (indexed d)) by congruence. subst. match goal with |- moves _ _ ?e => apply (Mv_list mg d e e k); [exact L| |reflexivity|constructor] end.
  intros x Nx. apply put_other, Nx.
Qed.
Definition hdr_ok (mg : bool) (h : hdr) : Prop := h_owner h = OWNER_CORE /\ (mg = true -> N.testbit (h_flags h) 4 = true).
Lemma buf_moves mg d c k h b : In c [PL; MI] -> list_key k -> hdr_ok mg h -> moves mg d (match b with Some p => store_abs d (c :: k) h p | None => d end).
Proof. intros C L (H1 & H2). destruct b as [p|]; [|constructor]. eapply Mv_abs; try eassumption. constructor. Qed.
Lemma diff_moves mg d cur h op new d' r : list_spec cur -> hdr_ok mg h -> delta_set_diff d cur h op new = Ok (d', r) -> moves mg d d'.
Proof.
  intros L H. pose proof (list_spec_key _ L) as Lk. destruct (store_plain cur (proj1 L)) as (_ & _ & Kp & Km). unfold delta_set_diff. rewrite Kp, Km.
  destruct (delta_write d (store_key cur) h op new false) as [((d1 & c) & s)| |] eqn:E; [|intros Q; assert (d' = d) by congruence; subst; constructor|discriminate].
  pose proof (write_moves mg _ _ _ _ _ _ _ _ Lk E) as M1.
  destruct (_ <? 0)%Z; [intros Q; assert (d' = d1) by congruence; subst; exact M1|].
  destruct (delta_abs_calc _ _ _) as [(plus & minus)| |]; [|intros Q; assert (d' = d1) by congruence; subst; exact M1|discriminate].
  intros Q. apply (f_equal (fun o => match o with Ok (d, _) => d | UB => d1 end)) in Q. cbn beta iota in Q. subst d'.
  eapply moves_trans; [exact M1|]. eapply moves_trans; [apply (buf_moves mg d1 PL (store_key cur) h plus); [left; reflexivity|exact Lk|exact H]|].
  apply (buf_moves mg _ MI (store_key cur) h minus); [right; left; reflexivity|exact Lk|exact H].
Qed.
Lemma relative_spec rel x s : list_spec rel -> relative rel x = Some s -> list_spec s.
Proof.
  intros ((P1 & P2) & C). unfold relative. destruct (ks_ns rel); try discriminate; destruct (get_key_part _ _); try discriminate; intros E; apply some_inj in E; subst s; (split; [split|]); cbn; assumption.
Qed.
Lemma no_sync_ok mg s g o : o = OWNER_CORE -> hdr_ok mg (Hdr s FLAGS_NO_SYNC g o).
Proof. intros ->. split; reflexivity. Qed.
Lemma rels_moves mg cur rel h op : list_spec rel -> hdr_ok mg h -> forall l d d' r, delta_rels d cur rel h op l = Ok (d', r) -> moves mg d d'.
Proof.
  intros L H. induction l as [|x l IH]; intros d d' r; cbn [delta_rels]; [intros E; assert (d' = d) by congruence; subst; constructor|].
  destruct (relative rel x) as [s|] eqn:Er; [|intros E; assert (d' = d) by congruence; subst; constructor].
  destruct (delta_set_diff _ _ _ _ _) as [(d1 & r1)|] eqn:E1; [|discriminate]. cbn [obind]. intros E.
  eapply moves_trans; [|eapply IH; exact E]. eapply diff_moves; [exact (relative_spec _ _ _ L Er)| |exact E1]. apply no_sync_ok, H.
Qed.
Lemma update_moves mg d cur rel h op abs now d' r : list_spec cur -> list_spec rel -> hdr_ok mg h -> op = OP_PLUS \/ op = OP_MINUS ->
  delta_update d cur rel h op abs now = Ok (d', r) -> moves mg d d'.
Proof.
  intros L1 L2 H O. destruct (store_plain cur (proj1 L1)) as (_ & _ & Kp & Km). unfold delta_update. destruct abs as [a|]; [|intros E; assert (d' = d) by congruence; subst; constructor].
  intros E. apply (rels_moves mg) in E; [|assumption..]. pose proof (list_spec_key _ L1) as L. destruct H as (H1 & H2).
  destruct O as [->| ->]; [rewrite Kp in E; apply (Mv_abs mg d d' PL (store_key cur) h a)|rewrite Km in E; apply (Mv_abs mg d d' MI (store_key cur) h a)]; try assumption;
    cbn; auto.
Qed.
Lemma kv_moves mg d cur rel h op new d' r : list_spec cur -> list_spec rel -> hdr_ok mg h -> kv_delta_set d cur rel h op new = Ok (d', r) -> moves mg d d'.
Proof.
  intros L1 L2 H. unfold kv_delta_set.
  destruct (delta_write d (store_key cur) h op new false) as [((d1 & c) & s)| |] eqn:E; [|intros Q; assert (d' = d) by congruence; subst; constructor|discriminate].
  pose proof (write_moves mg _ _ _ _ _ _ _ _ (list_spec_key _ L1) E) as M1.
  destruct (_ <? 0)%Z; [intros Q; assert (d' = d1) by congruence; subst; exact M1|].
  destruct (delta_abs_calc _ _ _) as [(plus & minus)| |]; [|intros Q; assert (d' = d1) by congruence; subst; exact M1|discriminate].
  destruct (delta_update d1 cur rel h OP_PLUS plus (d_plus s)) as [(d2 & r2)|] eqn:E2; [|discriminate]. cbn [obind].
  apply (update_moves mg) in E2; [|assumption..|left; reflexivity]. pose proof (moves_trans _ _ _ M1 _ E2) as M2.
  destruct (r2 <? 0)%Z; [intros Q; assert (d' = d2) by congruence; subst; exact M2|].
  destruct (delta_update d2 cur rel h OP_MINUS minus (d_minus s)) as [(d3 & r3)|] eqn:E3; [|discriminate]. cbn [obind].
  apply (update_moves mg) in E3; [|assumption..|right; reflexivity]. pose proof (moves_trans _ _ _ M2 _ E3) as M3.
  destruct (r3 <? 0)%Z; intros Q; assert (d' = d3) by congruence; subst; exact M3.
Qed.
Lemma handle_moves mg d u owner vdevs dom ns cat id op d' r : handle_devs_for_group d u owner vdevs dom ns cat id op = Ok (d', r) -> moves mg d d'.
Proof.
  apply kv_moves; [|split; [split; reflexivity|right; reflexivity]|split; reflexivity]. split; [split; reflexivity|left; reflexivity].
Qed.
Lemma destroy_moves d u owner dom ns cat id force dfl d' r : group_destroy d u owner dom ns cat id force dfl = Ok (d', r) -> moves false d d'.
Proof.
  unfold group_destroy. destruct (data_at _ _); [|intros Q; assert (d' = d) by congruence; subst; constructor].
  destruct (_ && _); [intros Q; assert (d' = d) by congruence; subst; constructor|].
  apply kv_moves; [split; [split; reflexivity|left; reflexivity]|split; [split; reflexivity|right; reflexivity]|split; [reflexivity|discriminate]].
Qed.
Lemma gstep_moves mg d o d' r : (mg = true -> merging_op o) -> gstep d o = Ok (d', r) -> moves mg d d'.
Proof.
  intros Mg. assert (Z : forall r0, Ok (d, r0) = Ok (d', r) -> moves mg d d') by (intros r0 Q; assert (d' = d) by congruence; subst; constructor).
  destruct o as [u owner cat id|u owner cat id|u owner cat old new dfl|u owner ns fl cat id|u owner ns cat id|u owner ns cat id|u owner ns cat id fc dfl|u dq]; cbn [gstep].
  1,2,5,6: match goal with |- context [if ?b then _ else _] => destruct b end; [apply Z|apply handle_moves].
  - destruct mg; [destruct (Mg eq_refl)|]. match goal with |- context [if ?b then _ else _] => destruct b end; [apply Z|].
    destruct (cmd_get_key_value _ _ _) as ([(l & fl)|] & c); [|apply Z].
    destruct (handle_devs_for_group _ _ _ _ _ _ _ _ _) as [(d1 & r1)|] eqn:E1; [|discriminate]. cbn [obind]. apply (handle_moves false) in E1.
    destruct (r1 <? 0)%Z; [intros Q; assert (d' = d1) by congruence; subst; exact E1|]. intros E2. apply destroy_moves in E2. exact (moves_trans _ _ _ E1 _ E2).
  - match goal with |- context [if ?b then _ else _] => destruct b end; [apply Z|]. intros E. apply (f_equal (fun o => match o with Ok p => fst p | UB => d end)) in E. cbn [fst] in E. subst d'.
    eapply Mv_create; [|constructor]. intros Et. rewrite N.ldiff_spec. rewrite (Mg Et). reflexivity.
  - destruct mg; [destruct (Mg eq_refl)|]. match goal with |- context [if ?b then _ else _] => destruct b end; [apply Z|apply destroy_moves].
  - apply kv_moves; [split; [split; reflexivity|left; reflexivity]|split; [split; reflexivity|right; reflexivity]|split; reflexivity].
Qed.
Lemma gsteps_moves mg l : forall d d', (mg = true -> Forall merging_op l) -> gsteps d l = Ok d' -> moves mg d d'.
Proof.
  induction l as [|o l IH]; intros d d' Mg; cbn [gsteps]; [intros E; assert (d' = d) by congruence; subst; constructor|].
  destruct (gstep d o) as [(d1 & r)|] eqn:E; [|discriminate]. cbn [obind]. intros E'. eapply moves_trans; [eapply gstep_moves; [|exact E]|eapply IH; [|exact E']]; intros Et; specialize (Mg Et); inversion Mg; assumption.
Qed.

(* The index follows the flag *)
Definition ix_at (d : db) (x : bytes) : Prop := indexed d x = true <-> wants_sync d x.
Definition sy (o : option rec) : bool := match o with Some r => has (r_flags r) FL_SYNC | None => false end.
Lemma wants_sy d x : wants_sync d x <-> sy (recs d x) = true.
Proof.
  unfold wants_sync, sy. destruct (recs d x) as [r|]; [rewrite has_SYNC|]; split; try discriminate; try (intros (r' & E & _); discriminate E).
  - intros (r' & E & H). assert (r' = r) by congruence. subst. exact H.
  - intros H. exists r. auto.
Qed.
Lemma ix_sy d x : ix_at d x <-> indexed d x = sy (recs d x).
Proof. unfold ix_at. rewrite wants_sy. destruct (indexed d x), (sy (recs d x)); intuition discriminate. Qed.
Lemma same_ix d d' x : recs d' x = recs d x -> indexed d' x = indexed d x -> ix_at d x -> ix_at d' x.
Proof. intros E1 E2. rewrite !ix_sy, E1, E2. auto. Qed.
Lemma manage_at d m k old new : indexed d k = sy old -> m k = new ->
  ix_at (manage_kv_index (Db m (indexed d)) (check_kv_index_needed false old new) k) k.
Proof.
  intros E1 E2. rewrite ix_sy. unfold check_kv_index_needed. change (match old with Some r => has (r_flags r) FL_SYNC | None => false end) with (sy old).
  change (match new with Some r => has (r_flags r) FL_SYNC | None => false end) with (sy new). rewrite <- E2.
  destruct (sy old) eqn:S1, (sy (m k)) eqn:S2; unfold manage_kv_index; cbn [andb negb Z.eqb KV_INDEX_NOOP KV_INDEX_REMOVE KV_INDEX_ADD Pos.eqb recs indexed]; rewrite ?mark_same, S2; try reflexivity; exact E1.
Qed.
Lemma manage_other d m c k x : x <> k -> recs (manage_kv_index (Db m (indexed d)) c k) x = m x /\ indexed (manage_kv_index (Db m (indexed d)) c k) x = indexed d x.
Proof.
  intros Nx. unfold manage_kv_index. destruct (c =? KV_INDEX_ADD)%Z; [|destruct (c =? KV_INDEX_REMOVE)%Z]; cbn [recs indexed]; rewrite ?mark_other by exact Nx; auto.
Qed.
Lemma manage_neg d c k : (c < 0)%Z -> manage_kv_index d c k = d.
Proof. intros L. unfold manage_kv_index, KV_INDEX_ADD, KV_INDEX_REMOVE. destruct (Z.eqb_spec c 1); [lia|]. destruct (Z.eqb_spec c 2); [lia|]. reflexivity. Qed.
Lemma store_abs_ix d c k h b x : In c [PL; MI] -> ix_at d x -> ix_at (store_abs d (c :: k) h b) x.
Proof.
  intros Hc K. assert (C : canonicalize_key (c :: k) = c :: k) by (destruct Hc as [<-|[<-|[]]]; reflexivity).
  unfold store_abs. destruct (items b) as [|i l].
  - unfold kvs_unset. rewrite C. cbn [h_owner]. destruct (check_kv_wr_allowed _ _ <? 0)%Z eqn:L; [apply Z.ltb_lt in L; rewrite manage_neg by exact L; exact K|].
    destruct (list_eq_dec ascii_dec x (c :: k)) as [->|Nx].
    + apply manage_at; [apply ix_sy, K|apply put_same].
    + destruct (manage_other d (put (recs d) (c :: k) None) (check_kv_index_needed false (recs d (c :: k)) None) (c :: k) x Nx) as (E1 & E2). apply (same_ix d); [rewrite E1; apply put_other, Nx|exact E2|exact K].
  - unfold kvs_set. rewrite C. unfold cb_write. destruct (check_kv_wr_allowed _ _ <? 0)%Z eqn:L; [apply Z.ltb_lt in L; rewrite manage_neg by exact L; exact K|].
    set (new := rec_with _ _). destruct (list_eq_dec ascii_dec x (c :: k)) as [->|Nx].
    + apply manage_at; [apply ix_sy, K|apply put_same].
    + destruct (manage_other d (put (recs d) (c :: k) (Some new)) (check_kv_index_needed false (recs d (c :: k)) (Some new)) (c :: k) x Nx) as (E1 & E2). apply (same_ix d); [rewrite E1; apply put_other, Nx|exact E2|exact K].
Qed.
Lemma create_other d u owner dom ns fl cat id x : x <> store_key (group_spec_ns u owner dom ns cat id) ->
  recs (fst (group_create d u owner dom ns fl cat id)) x = recs d x /\ indexed (fst (group_create d u owner dom ns fl cat id)) x = indexed d x.
Proof.
  intros Nx. unfold group_create, kvs_set. change (canonicalize_key (compose_key (group_spec_ns u owner dom ns cat id))) with (store_key (group_spec_ns u owner dom ns cat id)).
  set (k := store_key _) in *. destruct (recs d k); cbn [cb_write_new_only].
  - cbn [fst]. unfold manage_kv_index. cbn [Z.eqb KV_INDEX_ADD KV_INDEX_REMOVE]. auto.
  - unfold cb_write. cbn [check_kv_wr_allowed Z.ltb Z.compare fst]. destruct (manage_other d (put (recs d) k (Some (Rec (u_seq u) fl (u_gen u) owner []))) (check_kv_index_needed false None (Some (Rec (u_seq u) fl (u_gen u) owner []))) k x Nx) as (E1 & E2).
    rewrite E1, E2, put_other by exact Nx. auto.
Qed.
Lemma create_list u owner dom ns cat id : list_key (store_key (group_spec_ns u owner dom ns cat id)).
Proof. apply list_spec_key. split; [split; reflexivity|left; reflexivity]. Qed.
Lemma moves_ix mg d d' : moves mg d d' -> forall x, ~ list_key x -> ix_at d x -> ix_at d' x.
Proof.
  induction 1 as [d|d d1 d2 k L E1 E2 M IH|d d2 c k h b C L H1 H2 M IH|d u owner dom ns fl cat id d2 F M IH]; intros x Nx K.
  - exact K.
  - apply IH; [exact Nx|]. apply (same_ix d); [apply E1; intros ->; contradiction|rewrite E2; reflexivity|exact K].
  - apply IH; [exact Nx|]. apply store_abs_ix; assumption.
  - apply IH; [exact Nx|]. destruct (create_other d u owner dom ns fl cat id x) as (E1 & E2); [intros ->; apply Nx, create_list|]. apply (same_ix d); assumption.
Qed.

(* Export *)
Lemma cleared_same r : N.testbit (r_flags r) 1 = false -> cleared r = r.
Proof.
  destruct r as [s f g o l]. cbn [r_flags]. intros H. unfold cleared. cbn [r_seq r_flags r_gen r_owner r_data]. f_equal. apply N.bits_inj. intros i. rewrite N.ldiff_spec.
  change FL_SYNC with (2 ^ 1)%N. rewrite N.pow2_bits_eqb. destruct (N.eqb_spec 1 i) as [<-|]; [rewrite H|rewrite andb_true_r]; reflexivity.
Qed.
Lemma cleared_bit r i : N.testbit (r_flags (cleared r)) i = N.testbit (r_flags r) i && negb (i =? 1)%N.
Proof.
  unfold cleared. cbn [r_flags]. rewrite N.ldiff_spec. change FL_SYNC with (2 ^ 1)%N. rewrite N.pow2_bits_eqb, N.eqb_sym. reflexivity.
Qed.
Definition is_udev (k : bytes) : bool := ns_eqb (get_ns_from_key k) NS_UDEV.
Lemma udev_spec k : is_udev k = true <-> get_ns_from_key k = NS_UDEV.
Proof. unfold is_udev. destruct (get_ns_from_key k); cbn; split; congruence. Qed.
Definition sends (vec : bytes -> bool) (d : db) (k : bytes) : list srec :=
  match recs d k with Some r => if N.testbit (r_flags r) 1 && negb (is_udev k) then [Srec (vec k) k (cleared r)] else [] | None => [] end.
Definition is_delta (x : bytes) : Prop := exists c k, In c [PL; MI] /\ main_key k /\ x = c :: k.
Lemma op_delta x : get_op_from_key x <> OP_SET <-> is_delta x.
Proof.
  unfold get_op_from_key, get_key_part. change (skip_parts KEY_PART_OP x) with (Some x). cbn match. change (KEY_PART_OP =? KEY_PART_COUNT - 1) with false. cbn match. split.
  - destruct (index JOIN x) as [i|] eqn:E; [|congruence]. destruct (index_cut _ _ E) as (Ex & _). destruct (firstn i x) as [|c [|? ?]]; try congruence. intros H.
    exists c, (JOIN :: skipn (i + 1) x). split; [|split; [reflexivity|exact Ex]].
    destruct (Ascii.eqb_spec c "+"%char) as [->|]; [left; reflexivity|]. destruct (Ascii.eqb_spec c "-"%char) as [->|]; [right; left; reflexivity|congruence].
  - intros (c & k & Hc & Mk & ->). destruct (main_cases k Mk) as (t & ->).
    change (c :: ":"%char :: t) with ([c] ++ JOIN :: t). rewrite index_join by (destruct Hc as [<-|[<-|[]]]; intros [H|[]]; discriminate H). cbn [length app firstn].
    destruct Hc as [<-|[<-|[]]]; discriminate.
Qed.
Lemma line_key k v lines key : udev_line k v = Ok (lines, key) -> key = k \/ get_key_part k KEY_PART_CORE = Some key.
Proof.
  unfold udev_line. destruct (get_key_part k KEY_PART_CORE) as [c|]; [|intros E; left; congruence]. destruct (r_data v) as [|[|a x] ?]; try (intros E; left; congruence).
  destruct (_ || _); [intros E; left; congruence|]. destruct (string_at _); [|discriminate]. cbn [obind]. intros E. right. congruence.
Qed.
Lemma export_all_lemma vec keys : forall e e', NoDup keys -> Forall (plain_property vec) keys -> export_all vec e keys = Ok (Some e') ->
  e_recs e' = e_recs e ++ flat_map (sends vec (e_db e)) keys
  /\ indexed (e_db e') = indexed (e_db e)
  /\ (forall x, ~ In x keys -> recs (e_db e') x = recs (e_db e) x)
  /\ (forall x, In x keys -> recs (e_db e') x = option_map cleared (recs (e_db e) x))
  /\ (forall x, In x (e_unindex e') <-> In x (e_unindex e) \/ (In x keys /\ wants_sync (e_db e) x))
  /\ (forall x, In x (e_unset e') -> In x (e_unset e) \/ (In x keys /\ wants_sync (e_db e) x /\ is_delta x))
  /\ (forall x, In x (e_unset e) \/ (In x keys /\ wants_sync (e_db e) x /\ is_delta x /\ get_ns_from_key x <> NS_UDEV) -> In x (e_unset e'))
  /\ (forall x, In x keys -> wants_sync (e_db e) x -> vec x = true -> get_ns_from_key x <> NS_UDEV).
Proof.
  induction keys as [|k keys IH]; intros e e' Nd Pp; cbn [export_all].
  - intros E. assert (e' = e) by congruence. subst. cbn [flat_map]. rewrite app_nil_r. repeat apply conj; try reflexivity; cbn [In]; tauto.
  - destruct (export_one vec e k) as [[e1|]|] eqn:E1; [|discriminate|discriminate]. cbn [obind]. intros E.
    inversion Nd as [|? ? Nk Nd']; subst. inversion Pp as [|? ? Pk Pp']; subst.
    destruct (IH e1 e' Nd' Pp' E) as (H1 & H2 & H3 & H4 & H5 & H6 & H7 & H8). clear IH E.
    assert (Hk : recs (e_db e') k = recs (e_db e1) k) by (apply H3, Nk).
    assert (S : e_recs e1 = e_recs e ++ sends vec (e_db e) k /\ indexed (e_db e1) = indexed (e_db e) /\ (forall x, x <> k -> recs (e_db e1) x = recs (e_db e) x)
      /\ recs (e_db e1) k = option_map cleared (recs (e_db e) k)
      /\ (forall x, In x (e_unindex e1) <-> In x (e_unindex e) \/ (x = k /\ wants_sync (e_db e) x))
      /\ (forall x, In x (e_unset e1) -> In x (e_unset e) \/ (x = k /\ wants_sync (e_db e) x /\ is_delta x))
      /\ (forall x, In x (e_unset e) \/ (x = k /\ wants_sync (e_db e) x /\ is_delta x /\ get_ns_from_key x <> NS_UDEV) -> In x (e_unset e1))
      /\ (wants_sync (e_db e) k -> vec k = true -> get_ns_from_key k <> NS_UDEV)).
    { clear H1 H2 H3 H4 H5 H6 H7 H8 Hk. unfold export_one in E1. unfold sends. pose proof (wants_sy (e_db e) k) as W. unfold sy in W.
      destruct (recs (e_db e) k) as [v|] eqn:Er.
      2:{ assert (e1 = e) by congruence. subst e1. rewrite app_nil_r. assert (Nw : forall x, ~ (x = k /\ wants_sync (e_db e) x)) by (intros x (-> & H); apply W in H; discriminate H).
          repeat apply conj; try reflexivity; try (intros x; specialize (Nw x); tauto); [exact Er|]. intros H; apply W in H; discriminate H. }
      rewrite has_SYNC in E1, W. destruct (N.testbit (r_flags v) 1) eqn:Ev; cbn [negb andb] in *.
      2:{ assert (e1 = e) by congruence. subst e1. rewrite app_nil_r. assert (Nw : forall x, ~ (x = k /\ wants_sync (e_db e) x)) by (intros x (-> & H); apply W in H; discriminate H).
          repeat apply conj; try reflexivity; try (intros x; specialize (Nw x); tauto); [rewrite Er; cbn [option_map]; rewrite cleared_same by exact Ev; reflexivity|]. intros H; apply W in H; discriminate H. }
      assert (Wk : wants_sync (e_db e) k) by (apply W; reflexivity). cbv zeta in E1. fold (is_udev k) in E1.
      pose proof (udev_spec k) as Us.
      destruct (is_udev k && vec k) eqn:Uv; [discriminate E1|].
      destruct (if is_udev k then udev_line k (cleared v) else Ok ([], k)) as [(lines & key)|] eqn:El; [|discriminate E1]. cbn [obind] in E1.
      apply (f_equal (fun o => match o with Ok (Some e) => e | _ => e1 end)) in E1. cbn beta iota in E1. subst e1. cbn [e_recs e_db e_unset e_unindex with_recs recs indexed].
      assert (Key : (is_udev k = false /\ key = k) \/ (is_udev k = true /\ (key = k \/ ~ is_delta key))).
      { destruct (is_udev k) eqn:Eu; [right|left; split; [reflexivity|congruence]]. split; [reflexivity|]. destruct (line_key _ _ _ _ El) as [->|Ec]; [left; reflexivity|right].
        intros (c & t & Hc & _ & ->). cbn [andb] in Uv. destruct (Pk Uv (proj1 Us eq_refl) _ Ec t) as (N1 & N2). destruct Hc as [<-|[<-|[]]]; [apply N1|apply N2]; reflexivity. }
      assert (Dl : forall x, In x (match get_op_from_key key with OP_SET => [] | OP_PLUS | OP_MINUS => [key] end) <-> x = key /\ is_delta key).
      { intros x. pose proof (op_delta key) as D. destruct (get_op_from_key key); cbn [In].
        - split; [intros []|]. intros (_ & Hd). apply D in Hd. congruence.
        - assert (is_delta key) by (apply D; discriminate). split; [intros [<-|[]]; auto|intros (-> & _); auto].
        - assert (is_delta key) by (apply D; discriminate). split; [intros [<-|[]]; auto|intros (-> & _); auto]. }
      split; [destruct (is_udev k); reflexivity|]. split; [reflexivity|]. split; [intros x Nx; apply put_other, Nx|]. split; [apply put_same|]. split.
      { intros x. rewrite in_app_iff. cbn [In]. split; intros [H|H]; auto; [destruct H as [<-|[]]; auto|destruct H as (-> & _); auto]. }
      split.
      { intros x. rewrite in_app_iff, Dl. intros [H|(-> & Hd)]; [auto|right]. destruct Key as [(_ & ->)|(_ & [->|Nd2])]; [auto|auto|contradiction]. }
      split.
      { intros x. rewrite in_app_iff, Dl. intros [H|(-> & _ & Hd & Nu)]; [auto|right]. destruct Key as [(_ & ->)|(Eu & _)]; [auto|]. destruct Nu. apply Us, Eu. }
      intros _ Vk Eu. apply Us in Eu. rewrite Eu, Vk in Uv. discriminate Uv. }
    destruct S as (S1 & S2 & S3 & S4 & S5 & S6 & S7 & S8).
    assert (Oth : forall x, In x keys -> recs (e_db e1) x = recs (e_db e) x) by (intros x Hx; apply S3; intros ->; contradiction).
    assert (Ws : forall x, In x keys -> (wants_sync (e_db e1) x <-> wants_sync (e_db e) x)) by (intros x Hx; rewrite !wants_sy, (Oth x Hx); reflexivity).
    split.
    { rewrite H1, S1, <- app_assoc. f_equal. cbn [flat_map]. f_equal. clear - Oth. induction keys as [|y l IH]; [reflexivity|]. cbn [flat_map]. rewrite IH by (intros x Hx; apply Oth; right; exact Hx). f_equal. unfold sends. rewrite (Oth y (or_introl eq_refl)). reflexivity. }
    split; [rewrite H2; exact S2|]. split.
    { intros x Nx. rewrite H3 by (intros Hx; apply Nx; right; exact Hx). apply S3. intros ->. apply Nx. left. reflexivity. }
    split.
    { intros x [<-|Hx]; [rewrite Hk; exact S4|]. rewrite H4 by exact Hx. rewrite (Oth x Hx). reflexivity. }
    split.
    { intros x. rewrite H5, S5. cbn [In]. split; [intros [[H|(-> & H)]|(Hx & H)]; [auto|auto|rewrite (Ws x Hx) in H; auto]|].
      intros [H|([<-|Hx] & H)]; [auto|auto|right; rewrite (Ws x Hx); auto]. }
    split.
    { intros x Hx. destruct (H6 x Hx) as [Q|(Q & Q1 & Q2)].
      - destruct (S6 x Q) as [R|(-> & R)]; [auto|right; split; [left; reflexivity|exact R]].
      - right. rewrite (Ws x Q) in Q1. split; [right; exact Q|auto]. }
    split.
    { intros x Hx. apply H7. destruct Hx as [Q|([<-|Hx] & Q1 & Q2)].
      - left. apply S7. left. exact Q.
      - left. apply S7. right. auto.
      - right. rewrite (Ws x Hx). auto. }
    intros x [<-|Hx] Q; [apply S8, Q|]. apply H8; [exact Hx|]. rewrite (Ws x Hx). exact Q.
Qed.
Lemma sorted_NoDup l : sorted l -> NoDup l.
Proof.
  induction 1 as [|a l H IH F]; constructor; [|exact IH]. intros Hi. rewrite Forall_forall in F. exact (before_irr a (F a Hi)).
Qed.
Lemma fold_unmark l : forall m x, fold_left (fun m k => mark m k false) l m x = if in_dec (list_eq_dec ascii_dec) x l then false else m x.
Proof.
  induction l as [|k l IH]; intros m x; [reflexivity|]. cbn [fold_left]. rewrite IH. destruct (in_dec _ x l) as [H|H], (in_dec _ x (k :: l)) as [H'|H']; try reflexivity.
  - destruct H'. right. exact H.
  - destruct H' as [->|H']; [apply mark_same|contradiction].
  - apply mark_other. intros ->. apply H'. left. reflexivity.
Qed.
Lemma export_lemma vec keys d lines l d' : NoDup keys -> Forall (plain_property vec) keys -> export vec keys d = Ok (Some (lines, l, d')) ->
  l = flat_map (sends vec d) keys
  /\ (forall x, ~ In x keys \/ ~ wants_sync d x -> indexed d' x = indexed d x /\ recs d' x = recs d x)
  /\ (forall x, In x keys -> wants_sync d x -> indexed d' x = false /\ ~ wants_sync d' x /\ (is_delta x -> get_ns_from_key x <> NS_UDEV -> recs d' x = None)
        /\ (~ is_delta x -> recs d' x = option_map cleared (recs d x)))
  /\ (forall x, In x keys -> wants_sync d x -> vec x = true -> get_ns_from_key x <> NS_UDEV).
Proof.
  intros Nd Pp. unfold export. destruct (export_all vec (Exported [] [] [] [] d) keys) as [[e|]|] eqn:E; [|discriminate|discriminate]. cbn [obind]. intros Q.
  destruct (export_all_lemma vec keys _ _ Nd Pp E) as (H1 & H2 & H3 & H4 & H5 & H6 & H7 & H8). cbn [e_recs e_db e_unset e_unindex app] in *.
  assert (El : l = e_recs e) by congruence. assert (Ed : d' = process_unsbuf e) by congruence. clear Q. subst d'.
  assert (Ix : forall x, indexed (process_unsbuf e) x = if in_dec (list_eq_dec ascii_dec) x (e_unindex e) then false else indexed d x).
  { intros x. unfold process_unsbuf. cbn [indexed]. rewrite fold_unmark, H2. reflexivity. }
  assert (Rx : forall x, recs (process_unsbuf e) x = if in_dec (list_eq_dec ascii_dec) x (e_unset e) then None else recs (e_db e) x).
  { intros x. unfold process_unsbuf. cbn [recs]. apply fold_none. }
  split; [congruence|]. split; [|split; [|exact H8]].
  - intros x Hx. rewrite Ix, Rx. destruct (in_dec _ x (e_unindex e)) as [I|I]; [apply H5 in I; destruct I as [[]|I]; tauto|]. split; [reflexivity|].
    destruct (in_dec _ x (e_unset e)) as [J|J]; [apply H6 in J; destruct J as [[]|J]; tauto|].
    destruct (in_dec (list_eq_dec ascii_dec) x keys) as [K|K]; [|apply H3, K]. rewrite H4 by exact K. destruct Hx as [Hx|Hx]; [contradiction|]. rewrite wants_sy in Hx.
    unfold sy in Hx. destruct (recs d x) as [r|]; [|reflexivity]. rewrite has_SYNC in Hx. cbn [option_map]. rewrite cleared_same; [reflexivity|]. destruct (N.testbit _ _); [destruct Hx; reflexivity|reflexivity].
  - intros x K W. rewrite Ix, wants_sy, Rx. destruct (in_dec _ x (e_unindex e)) as [I|I]; [|destruct I; apply H5; auto]. split; [reflexivity|]. split; [|split].
    + destruct (in_dec _ x (e_unset e)) as [J|J]; [discriminate|]. rewrite H4 by exact K. destruct (recs d x) as [r|]; [|discriminate]. cbn [option_map sy]. rewrite has_SYNC, cleared_bit, andb_false_r. discriminate.
    + intros Dl Nu. destruct (in_dec _ x (e_unset e)) as [J|J]; [reflexivity|]. destruct J. apply H7. right. auto.
    + intros Nd2. destruct (in_dec _ x (e_unset e)) as [J|J]; [apply H6 in J; destruct J as [[]|(_ & _ & J)]; contradiction|]. apply H4, K.
Qed.

(* C70: the index over any work *)
Lemma tracked_not_arch x t : tracked x -> x <> canonicalize_key (with_prefix C_ARCHIVE t).
Proof.
  intros ((c & k & Hc & ->) & _). destruct t as [|a t]; cbn [with_prefix]; [discriminate|]. change (canonicalize_key (C_ARCHIVE :: t)) with (C_ARCHIVE :: t). intros E. injection E as -> _.
  destruct Hc as [H|[H|[H|[]]]]; discriminate H.
Qed.
Lemma kv_set_ix d u owner dom n core value flags d' c st x : do_kv_set d u owner dom n core value flags false = Ok (d', c, st) -> tracked x -> ix_at d x -> ix_at d' x.
Proof.
  intros E T K. unfold do_kv_set in E. cbv zeta in E. set (key := compose_key (set_spec (u_dev u) owner dom n core)) in *. clearbody key.
  match type of E with (if ?b then _ else _) = _ => destruct b end; [assert (d' = d) by congruence; subst; exact K|].
  set (fl := if ns_eqb n NS_UDEV then N.lor flags FL_SYNC_P else flags) in *. clearbody fl.
  unfold kvs_set in E. set (k := canonicalize_key (skipn 1 key)) in *. clearbody k. unfold cb_write in E.
  set (new := Rec (u_seq u) fl (u_gen u) owner _) in *.
  destruct (check_kv_wr_allowed (recs d k) (r_owner new) <? 0)%Z eqn:L.
  - apply Z.ltb_lt in L. destruct value; [discriminate E|]. rewrite manage_neg in E by exact L. assert (d' = d) by congruence. subst. exact K.
  - assert (E' : exists m, d' = manage_kv_index (Db m (indexed d)) (check_kv_index_needed false (recs d k) (Some new)) k /\ (forall y, tracked y -> m y = put (recs d) k (Some new) y)).
    { destruct (has fl FL_AR).
      - eexists. split; [destruct value; apply (f_equal (fun o => match o with Ok (d, _, _) => d | UB => d' end)) in E; cbn beta iota in E; symmetry; exact E|].
        intros y Ty. destruct (recs d k); [|reflexivity]. apply put_other, tracked_not_arch, Ty.
      - eexists. split; [destruct value; apply (f_equal (fun o => match o with Ok (d, _, _) => d | UB => d' end)) in E; cbn beta iota in E; symmetry; exact E|]. reflexivity. }
    destruct E' as (m & -> & Hm). destruct (list_eq_dec ascii_dec x k) as [->|Nx].
    + apply manage_at; [apply ix_sy, K|]. rewrite (Hm k T). apply put_same.
    + destruct (manage_other d m (check_kv_index_needed false (recs d k) (Some new)) k x Nx) as (E1 & E2). apply (same_ix d); [rewrite E1, (Hm x T); apply put_other, Nx|exact E2|exact K].
Qed.
Lemma set_with_cb d k new cb x : (forall old, cb old new = (check_kv_index_needed false old (Some new), true) \/ exists c, cb old new = (c, false) /\ (c < 0)%Z) -> ix_at d x ->
  let '(d', c, _) := kvs_set d k new None cb in ix_at (manage_kv_index d' c (canonicalize_key k)) x.
Proof.
  intros Hcb K. unfold kvs_set. destruct (Hcb (recs d (canonicalize_key k))) as [E|(c & E & L)]; rewrite E.
  - destruct (list_eq_dec ascii_dec x (canonicalize_key k)) as [->|Nx].
    + apply manage_at; [apply ix_sy, K|apply put_same].
    + destruct (manage_other d (put (recs d) (canonicalize_key k) (Some new)) (check_kv_index_needed false (recs d (canonicalize_key k)) (Some new)) (canonicalize_key k) x Nx) as (E1 & E2).
      apply (same_ix d); [rewrite E1; apply put_other, Nx|exact E2|exact K].
  - rewrite manage_neg by exact L. exact K.
Qed.
Lemma cb_reserve_cases new owner : forall old, cb_reserve false old (Some new) owner = (check_kv_index_needed false old (Some new), true) \/ exists c, cb_reserve false old (Some new) owner = (c, false) /\ (c < 0)%Z.
Proof.
  intros [o|]; cbn [cb_reserve]; [|left; reflexivity]. destruct (mod_match _ _); try (left; reflexivity); right; exists (- EPERM)%Z; (split; [reflexivity|reflexivity]).
Qed.
Lemma reserve_ix d g owner dom n core flags unset d' c x : do_reserve d g owner dom n core flags unset true = Ok (d', c) -> ix_at d x -> ix_at d' x.
Proof.
  unfold do_reserve. cbv zeta. cbn [negb andb]. rewrite andb_false_r. destruct (has _ FL_ALIGN); [discriminate|].
  set (new := Rec 0 _ g owner []). intros E K. pose proof (set_with_cb d (compose_key (reserve_spec dom n core)) new (fun old new => cb_reserve false old (Some new) owner) x (cb_reserve_cases new owner) K) as G.
  destruct (kvs_set _ _ _ _ _) as ((d1 & c1) & s1). assert (d' = manage_kv_index d1 c1 (canonicalize_key (compose_key (reserve_spec dom n core)))) by congruence. subst. exact G.
Qed.
Lemma work_index vec d ms d' : work vec d ms d' -> index_ok d -> index_ok d'.
Proof.
  induction 1 as [d|d u owner dom n core value flags d1 c st ms d2 E W IH|d g owner n core flags d1 c ms d2 E W IH|d g owner n core d1 c ms d2 E W IH|d o d1 c ms d2 E W IH|d keys lines l d1 ms d2 Il Pp E W IH]; intros K.
  - exact K.
  - apply IH. intros x T. exact (kv_set_ix _ _ _ _ _ _ _ _ _ _ _ x E T (K x T)).
  - apply IH. intros x T. unfold kv_reserve in E. destruct (bad_name core); [assert (d1 = d) by congruence; subst; exact (K x T)|]. exact (reserve_ix _ _ _ _ _ _ _ _ _ _ x E (K x T)).
  - apply IH. intros x T. unfold kv_unreserve in E. destruct (bad_name core); [assert (d1 = d) by congruence; subst; exact (K x T)|]. exact (reserve_ix _ _ _ _ _ _ _ _ _ _ x E (K x T)).
  - apply IH. intros x T. apply (gstep_moves false) in E; [|discriminate]. exact (moves_ix _ _ _ E x (proj2 T) (K x T)).
  - apply IH. intros x T. destruct Il as (Sk & Hk). destruct (export_lemma vec keys d lines l d1 (sorted_NoDup _ Sk) Pp E) as (_ & H1 & H2 & _).
    specialize (K x T). destruct (in_dec (list_eq_dec ascii_dec) x keys) as [I|I].
    + assert (Wx : wants_sync d x) by (apply K, Hk, I). destruct (H2 x I Wx) as (E1 & E2 & _). rewrite E1. split; [discriminate|contradiction].
    + destruct (H1 x (or_introl I)) as (E1 & E2). apply (same_ix d); assumption.
Qed.
Lemma export_theorem vec d keys lines l d' : index_list d keys -> Forall (plain_property vec) keys -> export vec keys d = Ok (Some (lines, l, d')) ->
  NoDup (map s_key l)
  /\ (forall s, In s l <-> exists r, indexed d (s_key s) = true /\ recs d (s_key s) = Some r /\ N.testbit (r_flags r) 1 = true /\ get_ns_from_key (s_key s) <> NS_UDEV
        /\ s = Srec (vec (s_key s)) (s_key s) (cleared r))
  /\ (forall k, indexed d k = true -> wants_sync d k -> indexed d' k = false /\ ~ wants_sync d' k)
  /\ (forall c k, In c ["+"%char; "-"%char] -> main_key k -> indexed d (c :: k) = true -> wants_sync d (c :: k) -> get_ns_from_key (c :: k) <> NS_UDEV -> recs d' (c :: k) = None)
  /\ (forall k, main_key k -> indexed d k = true -> recs d' k = option_map cleared (recs d k))
  /\ (forall k, indexed d k = false -> indexed d' k = false /\ recs d' k = recs d k).
Proof.
  intros (Sk & Hk) Pp E. pose proof (sorted_NoDup _ Sk) as Nd. destruct (export_lemma vec keys d lines l d' Nd Pp E) as (El & H1 & H2 & _).
  assert (Sends : forall k s, In s (sends vec d k) <-> exists r, s_key s = k /\ recs d k = Some r /\ N.testbit (r_flags r) 1 = true /\ get_ns_from_key k <> NS_UDEV /\ s = Srec (vec k) k (cleared r)).
  { intros k s. unfold sends. pose proof (udev_spec k) as U. destruct (recs d k) as [r|]; [|split; [intros []|intros (r & _ & Q & _); discriminate Q]].
    destruct (N.testbit (r_flags r) 1) eqn:B1; cbn [andb]; [|split; [intros []|intros (r' & _ & Q & Q2 & _); assert (r' = r) by congruence; subst; congruence]].
    destruct (is_udev k); cbn [negb In].
    - split; [intros []|]. intros (r' & _ & _ & _ & Q & _). destruct Q. apply U. reflexivity.
    - split; [intros [<-|[]]; exists r; repeat (split; [solve [reflexivity|assumption|intros Q; apply U in Q; discriminate Q]|]); reflexivity|].
      intros (r' & _ & Q & _ & _ & Q2). left. congruence. }
  split; [|split; [|split; [|split; [|split]]]].
  - rewrite El. clear - Nd Sends. induction keys as [|k keys IH]; [constructor|]. inversion Nd as [|? ? Nk Nd']; subst. cbn [flat_map]. rewrite map_app.
    assert (S1 : map s_key (sends vec d k) = [] \/ map s_key (sends vec d k) = [k]) by (unfold sends; destruct (recs d k) as [r|]; [destruct (_ && _)|]; auto).
    destruct S1 as [->| ->]; [exact (IH Nd')|]. cbn [app]. constructor; [|exact (IH Nd')]. intros Hi. apply in_map_iff in Hi as (s & Es & Hs). apply in_flat_map in Hs as (k' & Hk' & Hs). apply Sends in Hs as (r & Es' & _). congruence.
  - intros s. rewrite El, in_flat_map. split.
    + intros (k & Ik & Hs). apply Sends in Hs as (r & Es & Er & Q). subst k. exists r. split; [apply Hk, Ik|]. split; [exact Er|exact Q].
    + intros (r & Ix & Er & Q). exists (s_key s). split; [apply Hk, Ix|]. apply Sends. exists r. auto.
  - intros k Ik W. destruct (H2 k (proj2 (Hk k) Ik) W) as (Q1 & Q2 & _). auto.
  - intros c k Hc Mk Ik W Nu. apply (H2 (c :: k)); [apply Hk, Ik|exact W|exists c, k; auto|exact Nu].
  - intros k Mk Ik. destruct (sy (recs d k)) eqn:Sy.
    + apply H2; [apply Hk, Ik|apply wants_sy, Sy|]. intros (c & t & Hc & _ & ->). destruct Hc as [<-|[<-|[]]]; discriminate Mk.
    + destruct (H1 k) as (_ & ->); [right; rewrite wants_sy; congruence|]. unfold sy in Sy. destruct (recs d k) as [r|]; [|reflexivity]. rewrite has_SYNC in Sy. cbn [option_map]. rewrite cleared_same by exact Sy. reflexivity.
  - intros k Ik. destruct (H1 k) as (Q1 & Q2); [left; rewrite Hk; congruence|]. split; [congruence|exact Q2].
Qed.
(* main-process reservations *)
Lemma again_lemma d g w n c f o : name_ok c -> no_nul w -> N.testbit f 0 = false -> recs d (reservation_key n c) = Some o -> r_owner o = w -> N.testbit (r_flags o) 1 = true ->
  exists d', kv_reserve d g w n c f true = Ok (d', 0%Z) /\ wants_sync d' (reservation_key n c) /\ indexed d' (reservation_key n c) = indexed d (reservation_key n c).
Proof.
  intros Hc Hw Ha Eo Ow Sy. unfold kv_reserve. rewrite (proj1 (name_bad c) Hc). unfold do_reserve. cbn [andb negb].
  rewrite has_ALIGN, testbit_other by (left; reflexivity). rewrite Ha. unfold kvs_set. rewrite res_key, Eo. unfold cb_reserve. rewrite Ow.
  assert (M : mod_match w w = MOD_MATCH \/ mod_match w w = MOD_CORE_MATCH) by (destruct (list_eq_dec ascii_dec w (B "/")) as [Eq|Nq]; [right; apply core_lemma, Eq|left; apply same_lemma; auto]).
  set (new := Rec 0 (N.lor f (N.lor FL_RS FL_SYNC_P)) g w []).
  assert (Cn : check_kv_index_needed false (Some o) (Some new) = KV_INDEX_NOOP).
  { unfold check_kv_index_needed. rewrite !has_SYNC, Sy. assert (S2 : N.testbit (r_flags new) 1 = true) by (cbn [new r_flags]; rewrite N.lor_spec; apply orb_true_r). rewrite S2. reflexivity. }
  exists (Db (put (recs d) (reservation_key n c) (Some new)) (indexed d)). split; [destruct M as [->| ->]; rewrite Cn; reflexivity|]. split; [|reflexivity].
  exists new. cbn [recs]. split; [apply put_same|]. cbn [new r_flags]. rewrite N.lor_spec. apply orb_true_r.
Qed.

(* C55: workers *)
Definition tidy (d : db) : Prop :=
  (forall c k r, In c [PL; MI] -> main_key k -> recs d (c :: k) = Some r -> r_owner r = OWNER_CORE /\ N.testbit (r_flags r) 4 = true)
  /\ (forall x, indexed d x = true -> exists c k, In c [PL; MI] /\ list_key k /\ x = c :: k).
Lemma index_cases d c k x : indexed (manage_kv_index d c k) x = true -> indexed d x = true \/ (x = k /\ c = KV_INDEX_ADD).
Proof.
  unfold manage_kv_index. destruct (c =? KV_INDEX_ADD)%Z eqn:A; [|destruct (c =? KV_INDEX_REMOVE)%Z; [|auto]]; cbn [indexed]; unfold mark; destruct (key_eqb_spec x k) as [->|N]; try discriminate; auto.
  intros _. right. split; [reflexivity|]. apply Z.eqb_eq, A.
Qed.
Lemma no_index old r : N.testbit (r_flags r) 1 = false -> check_kv_index_needed false old (Some r) <> KV_INDEX_ADD.
Proof. intros H. unfold check_kv_index_needed. rewrite has_SYNC, H. rewrite ?andb_false_r. destruct old as [o|]; [destruct (has (r_flags o) FL_SYNC)|]; discriminate. Qed.
Lemma main_tail c k : list_key (c :: k) -> c = ":"%char.
Proof. intros (M & _). unfold main_key in M. cbn [hd_error] in M. congruence. Qed.
Lemma delta_not_list c k : In c [PL; MI] -> ~ list_key (c :: k).
Proof. intros [<-|[<-|[]]] L; apply main_tail in L; discriminate L. Qed.
Lemma abs_tidy d c k h b : In c [PL; MI] -> list_key k -> h_owner h = OWNER_CORE -> N.testbit (h_flags h) 4 = true -> tidy d -> tidy (store_abs d (c :: k) h b).
Proof.
  intros Hc L Ho Hb (T1 & T2). assert (C : canonicalize_key (c :: k) = c :: k) by (destruct Hc as [<-|[<-|[]]]; reflexivity). unfold store_abs.
  destruct (items b) as [|i l].
  - unfold kvs_unset. rewrite C. cbn [h_owner]. rewrite Ho. destruct (check_kv_wr_allowed _ _ <? 0)%Z eqn:Lt; [apply Z.ltb_lt in Lt; rewrite manage_neg by exact Lt; split; assumption|]. split.
    + intros c' k' r' Hc' M. rewrite index_recs. cbn [recs]. unfold put. destruct (key_eqb_spec (c' :: k') (c :: k)); [discriminate|]. apply T1; assumption.
    + intros x Hx. apply index_cases in Hx as [Hx|(-> & _)]; [apply T2, Hx|exists c, k; auto].
  - unfold kvs_set. rewrite C. unfold cb_write. cbn [rec_with h_owner h_flags r_owner]. rewrite Ho. destruct (check_kv_wr_allowed _ _ <? 0)%Z eqn:Lt; [apply Z.ltb_lt in Lt; rewrite manage_neg by exact Lt; split; assumption|]. split.
    + intros c' k' r' Hc' M. rewrite index_recs. cbn [recs]. unfold put. destruct (key_eqb_spec (c' :: k') (c :: k)); [|apply T1; assumption].
      intros E. apply some_inj in E. subst r'. unfold rec_with. cbn [r_owner r_flags h_owner h_flags]. rewrite N.lor_spec, Hb. auto.
    + intros x Hx. apply index_cases in Hx as [Hx|(-> & _)]; [apply T2, Hx|exists c, k; auto].
Qed.
Lemma create_tidy d u owner dom ns fl cat id : N.testbit fl 1 = false -> tidy d -> tidy (fst (group_create d u owner dom ns fl cat id)).
Proof.
  intros F (T1 & T2). split.
  - intros c k r Hc M. destruct (create_other d u owner dom ns fl cat id (c :: k)) as (E1 & _); [intros E; apply (delta_not_list c k Hc); rewrite E; apply create_list|]. rewrite E1. apply T1; assumption.
  - intros x Hx. apply T2. destruct (list_eq_dec ascii_dec x (store_key (group_spec_ns u owner dom ns cat id))) as [->|N]; [|rewrite <- (proj2 (create_other d u owner dom ns fl cat id x N)); exact Hx].
    unfold group_create, kvs_set in Hx. change (canonicalize_key (compose_key (group_spec_ns u owner dom ns cat id))) with (store_key (group_spec_ns u owner dom ns cat id)) in Hx.
    set (k := store_key _) in *. destruct (recs d k); cbn [cb_write_new_only] in Hx; [exact Hx|].
    unfold cb_write in Hx. cbn [check_kv_wr_allowed Z.ltb Z.compare fst] in Hx. apply index_cases in Hx as [Hx|(_ & Hx)]; [exact Hx|]. exfalso. revert Hx. apply no_index. exact F.
Qed.
Lemma moves_tidy d d' : moves true d d' -> tidy d -> tidy d'.
Proof.
  intros M. remember true as mg eqn:Em. induction M as [d|d d1 d2 k L E1 E2 M IH|d d2 c k h b C L H1 H2 M IH|d u owner dom ns fl cat id d2 F M IH]; intros T.
  - exact T.
  - apply IH. destruct T as (T1 & T2). split; [|rewrite E2; exact T2]. intros c' k' r' Hc' M'. rewrite E1 by (intros E; apply (delta_not_list c' k' Hc'); rewrite E; exact L). apply T1; assumption.
  - apply IH. apply abs_tidy; auto.
  - apply IH. apply create_tidy; auto.
Qed.
Lemma quiet_tidy d : quiet d -> tidy d.
Proof.
  intros (F & Q). split; [|intros x Hx; rewrite Q in Hx; discriminate Hx]. intros c k r Hc M E. destruct (F k c M Hc) as (F1 & _). congruence.
Qed.
(* What a worker sends *)
Lemma worker_message vec d0 d l : ready_store d0 -> lists_are_vectors vec -> worker vec d0 d l ->
  (forall s, In s l <-> exists c k r, In c [PL; MI] /\ list_key k /\ recs d (c :: k) = Some r /\ s = Srec true (c :: k) (cleared r))
  /\ in_order l /\ inv_all d0 d /\ well_formed d.
Proof.
  intros (W0 & S0 & Q0) V (ops & keys & lines & d' & G & Mg & E & Il & Ex).
  destruct (history_ok d0 ops d W0 (proj1 Q0) G E) as (I & Wd).
  destruct (moves_tidy d0 d (gsteps_moves true ops d0 d (fun _ => Mg) E) (quiet_tidy d0 Q0)) as (T1 & T2).
  assert (Vk : forall c k, In c [PL; MI] -> list_key k -> vec (c :: k) = true) by (intros c k Hc L; destruct (V k L) as (_ & V1 & V2); destruct Hc as [<-|[<-|[]]]; assumption).
  assert (Pp : Forall (plain_property vec) keys).
  { apply Forall_forall. intros x Hx. destruct Il as (_ & Hk). apply Hk, T2 in Hx as (c & k & Hc & L & ->). intros Ev. rewrite (Vk c k Hc L) in Ev. discriminate Ev. }
  destruct (export_theorem vec d keys lines l d' Il Pp Ex) as (_ & Hin & _).
  destruct (export_lemma vec keys d lines l d' (sorted_NoDup _ (proj1 Il)) Pp Ex) as (_ & _ & _ & Nu).
  assert (Hs : forall s, In s l <-> exists c k r, In c [PL; MI] /\ list_key k /\ recs d (c :: k) = Some r /\ s = Srec true (c :: k) (cleared r)).
  { intros s. rewrite Hin. split.
    - intros (r & Ix & Er & B1 & Nu1 & Es). destruct (T2 _ Ix) as (c & k & Hc & L & Ek). exists c, k, r. rewrite Ek in *. rewrite (Vk c k Hc L) in Es. auto.
    - intros (c & k & r & Hc & L & Er & ->). exists r. cbn [s_key]. rewrite (Vk c k Hc L).
      assert (K : dkey_ok d (c :: k)) by (destruct (I k (proj1 L)) as (_ & _ & _ & _ & _ & K1 & K2); destruct Hc as [<-|[<-|[]]]; assumption).
      unfold dkey_ok in K. rewrite Er in K. destruct K as (K1 & K2 & _). rewrite has_SYNC in K1. repeat (split; [assumption|]). split; [|reflexivity].
      apply Nu; [apply (proj2 Il), K2|exists r; auto|apply Vk; assumption]. }
  split; [exact Hs|]. split; [|split; assumption].
  assert (Each : forall s, In s l -> core_change s /\ sorted (r_data (s_rec s)) /\ no_nul (r_owner (s_rec s))).
  { intros s H. apply Hs in H as (c & k & r & Hc & L & Er & ->). destruct (T1 c k r Hc (proj1 L) Er) as (Ow & B4). cbn [s_rec]. split; [|split].
    - split; [|split; [cbn [s_rec cleared r_owner]; exact Ow|cbn [s_rec]; rewrite cleared_bit, B4; reflexivity]].
      destruct Hc as [<-|[<-|[]]]; [exists OP_PLUS, k|exists OP_MINUS, k]; (split; [reflexivity|]); (split; [apply L|reflexivity]).
    - cbn [cleared r_data]. assert (Ed : members d (c :: k) = r_data r) by (unfold members; rewrite Er; reflexivity). rewrite <- Ed.
      destruct (I k (proj1 L)) as (_ & K1 & K2 & _). destruct Hc as [<-|[<-|[]]]; assumption.
    - cbn [cleared r_owner]. rewrite Ow. intros [H|[]]. discriminate H. }
  split.
  - exists l, []. rewrite app_nil_r. split; [reflexivity|]. split; [apply Forall_forall; intros s H; apply Each, H|]. split; constructor.
  - apply Forall_forall. intros s H. apply Each, H.
Qed.
Lemma worker_sends vec d0 d l k x : ready_store d0 -> lists_are_vectors vec -> worker vec d0 d l -> list_key k ->
  (added l k x <-> In x (members d k) /\ ~ In x (members d0 k)) /\ (removed l k x <-> In x (members d0 k) /\ ~ In x (members d k)).
Proof.
  intros R V Wk L. destruct (worker_message vec d0 d l R V Wk) as (Hs & _ & I & _). destruct (I k (proj1 L)) as (_ & _ & _ & I1 & I2 & _).
  rewrite <- I1, <- I2. unfold added, removed. split; split.
  - intros (s & H & Ek & Hx). apply Hs in H as (c & k' & r & Hc & L' & Er & ->). cbn [s_key s_rec cleared r_data] in *. unfold members. change "+"%char with PL in Ek. rewrite <- Ek, Er. exact Hx.
  - unfold members at 1. destruct (recs d (PL :: k)) as [r|] eqn:Er; [|intros []]. intros Hx. exists (Srec true (PL :: k) (cleared r)). split; [|split; [reflexivity|exact Hx]].
    apply Hs. exists PL, k, r. repeat split; auto; [left; reflexivity|apply L|apply L].
  - intros (s & H & Ek & Hx). apply Hs in H as (c & k' & r & Hc & L' & Er & ->). cbn [s_key s_rec cleared r_data] in *. unfold members. change "-"%char with MI in Ek. rewrite <- Ek, Er. exact Hx.
  - unfold members at 1. destruct (recs d (MI :: k)) as [r|] eqn:Er; [|intros []]. intros Hx. exists (Srec true (MI :: k) (cleared r)). split; [|split; [reflexivity|exact Hx]].
    apply Hs. exists MI, k, r. repeat split; auto; [right; left; reflexivity|apply L|apply L].
Qed.
Lemma F2_in (A C : Type) (P : A -> C -> Prop) la lc : Forall2 P la lc -> (forall a, In a la -> exists c, In c lc /\ P a c) /\ (forall c, In c lc -> exists a, In a la /\ P a c).
Proof.
  induction 1 as [|a c la lc H F (I1 & I2)]; [split; intros ? []|]. split.
  - intros a' [<-|Ha]; [exists c; cbn; auto|]. destruct (I1 a' Ha) as (c' & Hc & Hp). exists c'. cbn. auto.
  - intros c' [<-|Hc]; [exists a; cbn; auto|]. destruct (I2 c' Hc) as (a' & Ha & Hp). exists a'. cbn. auto.
Qed.
Lemma workers_lemma vec d0 ds ls ls' : ready_store d0 -> lists_are_vectors vec -> Forall2 (worker vec d0) ds ls -> Permutation ls ls' ->
  exists d, syncs d0 ls' d /\ forall k, list_key k -> forall x,
    In x (members d k) <-> (In x (members d0 k) /\ (forall w, In w ds -> In x (members w k))) \/ (~ In x (members d0 k) /\ exists w, In w ds /\ In x (members w k)).
Proof.
  intros R V F P. destruct (F2_in _ _ _ _ _ F) as (Fd & Fl).
  assert (Io : Forall in_order ls) by (apply Forall_forall; intros l Hl; destruct (Fl l Hl) as (w & Hw & Wk); apply (worker_message vec d0 w l R V Wk)).
  destruct (merge_lemma d0 ls ls' (proj1 (proj2 R)) Io P) as (d & E & H). exists d. split; [exact E|]. intros k L x.
  assert (A : added (concat ls) k x <-> exists w, In w ds /\ In x (members w k) /\ ~ In x (members d0 k)).
  { split.
    - intros (s & Hs & Q). apply in_concat in Hs as (l & Hl & Hs). destruct (Fl l Hl) as (w & Hw & Wk). exists w. split; [exact Hw|]. apply (worker_sends vec d0 w l k x R V Wk L). exists s. auto.
    - intros (w & Hw & Q). destruct (Fd w Hw) as (l & Hl & Wk). apply (proj1 (worker_sends vec d0 w l k x R V Wk L)) in Q. destruct Q as (s & Hs & Q). exists s. split; [apply in_concat; exists l; auto|exact Q]. }
  assert (Rm : removed (concat ls) k x <-> exists w, In w ds /\ In x (members d0 k) /\ ~ In x (members w k)).
  { split.
    - intros (s & Hs & Q). apply in_concat in Hs as (l & Hl & Hs). destruct (Fl l Hl) as (w & Hw & Wk). exists w. split; [exact Hw|]. apply (worker_sends vec d0 w l k x R V Wk L). exists s. auto.
    - intros (w & Hw & Q). destruct (Fd w Hw) as (l & Hl & Wk). apply (proj2 (worker_sends vec d0 w l k x R V Wk L)) in Q. destruct Q as (s & Hs & Q). exists s. split; [apply in_concat; exists l; auto|exact Q]. }
  rewrite (H k (proj1 L)).
  - rewrite A, Rm. split.
    + intros [(H0 & N)|(w & Hw & Q1 & Q2)]; [left; split; [exact H0|]|right; split; [exact Q2|exists w; auto]]. intros w Hw. destruct (in_dec (list_eq_dec ascii_dec) x (members w k)) as [Q|Q]; [exact Q|destruct N; exists w; auto].
    + intros [(H0 & Q)|(H0 & w & Hw & Q)]; [left; split; [exact H0|]|right; exists w; auto]. intros (w & Hw & _ & Nw). apply Nw, Q, Hw.
  - intros s Hs Ek. apply in_concat in Hs as (l & Hl & Hs). destruct (Fl l Hl) as (w & Hw & Wk). destruct (worker_message vec d0 w l R V Wk) as (Hm & _). apply Hm in Hs as (c & k' & r & Hc & _ & _ & ->). cbn [s_key] in Ek. apply (delta_not_list c k' Hc). rewrite Ek. exact L.
  - rewrite A, Rm. intros ((w & _ & _ & Q) & w' & _ & Q' & _). contradiction.
Qed.

(* Rounds *)
Lemma trans_unset_ix st k o s a : indexed (s_db (trans_unset st k o s a)) = indexed (s_db st).
Proof. unfold trans_unset. destruct (main_unset _ _ _); reflexivity. Qed.
Lemma step_ix st r st' : sync_step st r = Ok st' -> indexed (s_db st') = indexed (s_db st).
Proof.
  unfold sync_step. cbv zeta. destruct (if s_vec r then _ else _).
  - intros E. assert (Es : st' = (if has (r_flags (s_rec r)) FL_AR then _ else _)) by (symmetry; apply (f_equal (fun o => match o with Ok x => x | UB => st' end)) in E; exact E). rewrite Es.
    destruct (has _ FL_AR); rewrite ?trans_unset_ix; reflexivity.
  - destruct (if s_vec r then _ else _).
    + intros E. apply (f_equal (fun o => match o with Ok x => x | UB => st' end)) in E. cbn beta iota in E. subst st'. destruct (has _ FL_AR); rewrite ?trans_unset_ix; cbn [set_rel s_db]; destruct (main_set _ _); reflexivity.
    + destruct (s_rel st); [|discriminate]. cbn [negb]. destruct (delta_write _ _ _ _ _ _) as [((d & c) & s)| |] eqn:E; [|discriminate|discriminate].
      assert (Ei : indexed d = indexed (s_db st)).
      { unfold delta_write in E. destruct (_ <? 0)%Z; [congruence|]. destruct (delta_step_calc _ _ _) as [s'| |]; [|congruence|discriminate E]. destruct (d_final s'); [|congruence].
        match type of E with DOk (?e, _, _) = _ => assert (d = e) by congruence end. subst. reflexivity. }
      destruct (d_final s); [|discriminate]. intros Q. apply (f_equal (fun o => match o with Ok x => x | UB => st' end)) in Q. cbn beta iota in Q. subst st'. destruct (_ && _); rewrite ?trans_unset_ix; exact Ei.
    + destruct (s_rel st); [|discriminate]. cbn [negb]. destruct (delta_write _ _ _ _ _ _) as [((d & c) & s)| |] eqn:E; [|discriminate|discriminate].
      assert (Ei : indexed d = indexed (s_db st)).
      { unfold delta_write in E. destruct (_ <? 0)%Z; [congruence|]. destruct (delta_step_calc _ _ _) as [s'| |]; [|congruence|discriminate E]. destruct (d_final s'); [|congruence].
        match type of E with DOk (?e, _, _) = _ => assert (d = e) by congruence end. subst. reflexivity. }
      destruct (d_final s); [|discriminate]. intros Q. apply (f_equal (fun o => match o with Ok x => x | UB => st' end)) in Q. cbn beta iota in Q. subst st'. destruct (_ && _); rewrite ?trans_unset_ix; exact Ei.
Qed.
Lemma steps_ix l : forall st st', sync_steps st l = Ok st' -> indexed (s_db st') = indexed (s_db st).
Proof.
  induction l as [|r l IH]; intros st st'; cbn [sync_steps]; [intros E; congruence|]. destruct (sync_step st r) as [st1|] eqn:E; [|discriminate]. cbn [obind]. intros E'. rewrite (IH _ _ E'). exact (step_ix _ _ _ E).
Qed.
Lemma syncs_ix d ls d' : syncs d ls d' -> indexed d' = indexed d.
Proof.
  induction 1 as [d|d d1 d2 l ls E R IH]; [reflexivity|]. rewrite IH. unfold sync_main in E. destruct (sync_steps (Sst d [] true) l) as [st|] eqn:Es; [|discriminate E]. cbn [obind] in E.
  apply (f_equal (fun o => match o with Ok x => x | UB => d1 end)) in E. cbn beta iota in E. subst d1. exact (steps_ix _ _ _ Es).
Qed.
Lemma effects_delta m l m' : effects m l m' -> forall c k, In c [PL; MI] -> m' (c :: k) = m (c :: k).
Proof.
  induction 1 as [m m' E|m m' m'' r l M (E & _) R IH|m m' m'' op k r l C (E & _) R IH]; intros c k' Hc.
  - apply E.
  - rewrite (IH c k' Hc). apply E; [intros Q; unfold main_key in M; rewrite <- Q in M; destruct Hc as [<-|[<-|[]]]; discriminate M|intros Q; injection Q as -> _; destruct Hc as [H|[H|[]]]; discriminate H].
  - rewrite (IH c k' Hc). apply E. intros <-. destruct C as (_ & M & _). unfold main_key in M. destruct Hc as [<-|[<-|[]]]; discriminate M.
Qed.
Lemma group_list g : group_item g -> list_key (members_of g).
Proof. intros (rest & [->| ->]); (split; [reflexivity|]); eexists; left; reflexivity. Qed.
Lemma dev_lists uid : list_key (members_of (dev_item uid)) /\ list_key (in_of (dev_item uid)).
Proof. split; (split; [reflexivity|]); eexists; [left|right]; reflexivity. Qed.
Lemma dseq_list id : list_key (in_of (dseq_item id)).
Proof. split; [reflexivity|]. eexists. right. reflexivity. Qed.
Lemma round_lemma vec d0 ds ls ls' d : ready_store d0 -> lists_are_vectors vec -> Forall2 (worker vec d0) ds ls -> Permutation ls ls' -> syncs d0 ls' d ->
  ready_store d /\ (symmetric d0 -> symmetric d)
  /\ forall k, list_key k -> forall x, In x (members d k) <->
       (In x (members d0 k) /\ (forall w, In w ds -> In x (members w k))) \/ (~ In x (members d0 k) /\ exists w, In w ds /\ In x (members w k)).
Proof.
  intros R V F P Sy. destruct (workers_lemma vec d0 ds ls ls' R V F P) as (d1 & E1 & H). rewrite <- (syncs_fun _ _ _ Sy _ E1) in H. clear d1 E1.
  destruct (F2_in _ _ _ _ _ F) as (Fd & Fl).
  assert (Io : Forall in_order ls') by (apply Forall_forall; intros l Hl; apply (Permutation_in _ (Permutation_sym P)) in Hl; destruct (Fl l Hl) as (w & Hw & Wk); apply (worker_message vec d0 w l R V Wk)).
  destruct (syncs_lemma ls' d0 (proj1 (proj2 R)) Io) as (d1 & E1 & G & S1). rewrite <- (syncs_fun _ _ _ Sy _ E1) in G, S1. clear d1 E1.
  assert (Ww : forall w, In w ds -> well_formed w) by (intros w Hw; destruct (Fd w Hw) as (l & _ & Wk); apply (worker_message vec d0 w l R V Wk)).
  assert (From : forall k x, list_key k -> In x (members d k) -> In x (members d0 k) \/ exists w, In w ds /\ In x (members w k)) by (intros k x L Hx; apply (H k L) in Hx; destruct Hx as [(Q & _)|(_ & Q)]; auto).
  split; [|split; [|exact H]].
  - destruct R as ((W1 & W2 & W3) & S0 & (F0 & Q0)). split; [|split; [exact S1|split]].
    + split; [intros k Mk; exact (proj1 S1 k Mk)|]. split.
      * intros g x Hg Hx. destruct (From _ _ (group_list g Hg) Hx) as [Q|(w & Hw & Q)]; [exact (W2 g x Hg Q)|]. destruct (Ww w Hw) as (_ & V2 & _). exact (V2 g x Hg Q).
      * intros uid x Hu Hx. destruct (From _ _ (proj1 (dev_lists uid)) Hx) as [Q|(w & Hw & Q)]; [exact (W3 uid x Hu Q)|]. destruct (Ww w Hw) as (_ & _ & V3). exact (V3 uid x Hu Q).
    + intros k c Mk Hc. rewrite (effects_delta _ _ _ G c k Hc), (syncs_ix _ _ _ Sy). apply F0; assumption.
    + intros k. rewrite (syncs_ix _ _ _ Sy). apply Q0.
  - intros (Y1 & Y2). assert (Sw : forall w, In w ds -> symmetric w).
    { intros w Hw. destruct (Fd w Hw) as (l & _ & (ops & keys & lines & d' & Gd & Mg & E & _)). exact (symmetric_history d0 ops w (proj1 R) (proj1 (proj2 (proj2 R))) (conj Y1 Y2) Gd E). }
    split.
    + intros g uid Hg Hu. rewrite (H _ (group_list g Hg)), (H _ (proj2 (dev_lists uid))), (Y1 g uid Hg Hu).
      assert (Q : forall w, In w ds -> (In (dev_item uid) (members w (members_of g)) <-> In g (members w (in_of (dev_item uid))))) by (intros w Hw; apply (Sw w Hw); assumption).
      split; (intros [(A & B0)|(A & w & Hw & B0)]; [left; split; [exact A|]; intros w Hw; apply (Q w Hw), B0, Hw|right; split; [exact A|]; exists w; split; [exact Hw|apply (Q w Hw), B0]]).
    + intros uid id Hu Hi. rewrite (H _ (proj1 (dev_lists uid))), (H _ (dseq_list id)), (Y2 uid id Hu Hi).
      assert (Q : forall w, In w ds -> (In (dseq_item id) (members w (members_of (dev_item uid))) <-> In (dev_item uid) (members w (in_of (dseq_item id))))) by (intros w Hw; apply (Sw w Hw); assumption).
      split; (intros [(A & B0)|(A & w & Hw & B0)]; [left; split; [exact A|]; intros w Hw; apply (Q w Hw), B0, Hw|right; split; [exact A|]; exists w; split; [exact Hw|apply (Q w Hw), B0]]).
Qed.
Lemma rounds_lemma vec d d' : lists_are_vectors vec -> rounds vec d d' -> ready_store d -> symmetric d -> ready_store d' /\ symmetric d'.
Proof.
  intros V. induction 1 as [d|d ds ls ls' d1 d2 F P Sy R IH]; intros Rs Ss; [auto|]. destruct (round_lemma vec d ds ls ls' d1 Rs V F P Sy) as (R1 & S1 & _). apply IH; [exact R1|apply S1, Ss].
Qed.

(* C59: reservations *)
Lemma reserve_stores d g w n c f wk : name_ok c -> N.testbit f 0 = false -> no_nul w -> (forall o, recs d (reservation_key n c) = Some o -> no_nul (r_owner o) /\ (r_owner o = w \/ w = B "/")) ->
  exists d', kv_reserve d g w n c f wk = Ok (d', 0%Z) /\ recs d' (reservation_key n c) = Some (Rec 0 (N.lor f 22) g w []).
Proof.
  intros Hc Ha Hw Ho. unfold kv_reserve. rewrite (proj1 (name_bad c) Hc). unfold do_reserve. cbn [andb].
  rewrite has_ALIGN, testbit_other by (left; reflexivity). rewrite Ha. unfold kvs_set. rewrite res_key. unfold cb_reserve.
  destruct (recs d (reservation_key n c)) as [o|] eqn:Er.
  - destruct (Ho o eq_refl) as (No & Ow). assert (M : mod_match (r_owner o) w = MOD_MATCH \/ mod_match (r_owner o) w = MOD_CORE_MATCH).
    { destruct (list_eq_dec ascii_dec w (B "/")) as [Eq|Nq]; [right; apply core_lemma, Eq|left]. destruct Ow as [Ow|Ow]; [|contradiction]. apply same_lemma; auto. }
    destruct M as [->| ->]; eexists; (split; [reflexivity|]); rewrite index_recs; apply put_same.
  - eexists; (split; [reflexivity|]); rewrite index_recs; apply put_same.
Qed.
Lemma reservation_main n c : main_key (reservation_key n c).
Proof. reflexivity. Qed.
Lemma once_split l k r : in_order l -> In r l -> s_key r = k -> main_key k ->
  exists a b, l = a ++ r :: b /\ (forall q, In q a \/ In q b -> s_key q <> k).
Proof.
  intros ((ds & ps & -> & Hd & Hp & Nd) & _) Hr Ek Mk. apply in_app_iff in Hr as [Hr|Hr].
  - rewrite Forall_forall in Hd. destruct (Hd r Hr) as ((op & k' & C) & _). apply change_not_main in C. rewrite Ek in C. contradiction.
  - apply in_split in Hr as (p1 & p2 & ->). rewrite map_app in Nd. cbn [map] in Nd. apply NoDup_remove_2 in Nd. exists (ds ++ p1), p2. rewrite <- app_assoc. split; [reflexivity|].
    intros q Hq E. assert (Hq' : In q ds \/ In q (p1 ++ p2)) by (rewrite in_app_iff in *; tauto). destruct Hq' as [Hq'|Hq'].
    + rewrite Forall_forall in Hd. destruct (Hd q Hq') as ((op & k' & C) & _). apply change_not_main in C. rewrite E in C. contradiction.
    + apply Nd. rewrite <- map_app. apply in_map_iff. exists q. split; [congruence|exact Hq'].
Qed.
Lemma plain_once d l d' r : sane (recs d) -> in_order l -> sync_main d l = Ok d' -> In r l -> main_key (s_key r) -> (forall op q, In q l -> ~ change op (s_key r) q) ->
  (~ accepts (recs d (s_key r)) (r_owner (s_rec r)) (r_seq (s_rec r)) -> recs d' (s_key r) = recs d (s_key r))
  /\ (accepts (recs d (s_key r)) (r_owner (s_rec r)) (r_seq (s_rec r)) -> removal r -> recs d' (s_key r) = None)
  /\ (accepts (recs d (s_key r)) (r_owner (s_rec r)) (r_seq (s_rec r)) -> ~ removal r -> recs d' (s_key r) = Some (s_rec r)).
Proof.
  intros Sd Io E Hr Mk Nc. destruct (sync_lemma d l Sd Io) as (d1 & E1 & G & _). assert (d1 = d') as -> by congruence. destruct (once_split l (s_key r) r Io Hr eq_refl Mk) as (a & b & -> & Nk).
  apply effects_split in G as (m1 & G1 & G2). assert (A : m1 (s_key r) = recs d (s_key r)).
  { apply (untouched _ _ _ G1); [exact Mk|intros q Hq; apply Nk; auto|intros op q Hq; apply Nc, in_app_iff; auto]. }
  inversion G2 as [|? m2 ? ? ? M P R|? ? ? op k ? ? C]; subst; [|exfalso; apply (change_not_main _ _ _ C), Mk].
  assert (Z : recs d' (s_key r) = m2 (s_key r)).
  { apply (untouched _ _ _ R); [exact Mk|intros q Hq; apply Nk; auto|intros op q Hq; apply Nc, in_app_iff; right; right; exact Hq]. }
  destruct P as (_ & P1 & P2 & P3 & _). rewrite Z. rewrite A in *. auto.
Qed.
Lemma cleared_reservation f : N.ldiff (N.lor f 22) FL_SYNC <> 16%N.
Proof.
  intros E. apply (f_equal (fun x => N.testbit x 2)) in E. rewrite N.ldiff_spec, N.lor_spec in E. cbn in E. rewrite orb_true_r in E. discriminate E.
Qed.
Lemma reservation_lost dw d g w n c f l d' : let k := reservation_key n c in
  name_ok c -> N.testbit f 0 = false -> no_nul w -> (forall o, recs dw k = Some o -> no_nul (r_owner o) /\ (r_owner o = w \/ w = B "/")) ->
  sane (recs d) -> in_order l -> (forall op q, In q l -> ~ change op k q) -> sync_main d l = Ok d' ->
  exists dw' r, kv_reserve dw g w n c f true = Ok (dw', 0%Z) /\ recs dw' k = Some r /\ r_owner r = w /\ is_reserved r
    /\ (In (Srec false k (cleared r)) l -> recs d' k = None \/ (recs d' k = recs d k /\ exists o, recs d k = Some o /\ ~ may_write o w)).
Proof.
  intros k Hc Ha Hw Ho Sd Io Nc E. destruct (reserve_stores dw g w n c f true Hc Ha Hw Ho) as (dw' & E1 & E2). exists dw', (Rec 0 (N.lor f 22) g w []).
  split; [exact E1|]. split; [exact E2|]. split; [reflexivity|]. split; [unfold is_reserved, flag; cbn [r_flags]; rewrite N.lor_spec; apply orb_true_r|].
  intros Hr. destruct (plain_once d l d' _ Sd Io E Hr (reservation_main n c) Nc) as (P1 & P2 & _). cbn [s_key s_rec cleared r_owner r_seq] in *. fold k in P1, P2.
  assert (Dec : accepts (recs d k) w 0 \/ exists o, recs d k = Some o /\ ~ may_write o w).
  { destruct (recs d k) as [o|] eqn:Er; [|left; exact I]. destruct (may_write_dec o w) as [M|M]; [exact (proj2 Sd _ _ Er)|exact Hw|left; split; [left; reflexivity|exact M]|right; exists o; auto]. }
  destruct Dec as [A|(o & Eo & M)]; [left; apply P2; [exact A|]|right; split; [apply P1|exists o; auto]].
  - split; [reflexivity|]. cbn [s_vec s_rec r_flags]. apply cleared_reservation.
  - rewrite Eo. intros (_ & Q). contradiction.
Qed.
Lemma reservation_takes_main dw d g w n c f l d' : let k := reservation_key n c in
  name_ok c -> N.testbit f 0 = false -> no_nul w -> (forall o, recs dw k = Some o -> no_nul (r_owner o) /\ (r_owner o = w \/ w = B "/")) ->
  sane (recs d) -> (forall o, recs d k = Some o -> r_owner o = w) -> in_order l -> (forall op q, In q l -> ~ change op k q) -> sync_main d l = Ok d' ->
  exists dw' r, kv_reserve dw g w n c f true = Ok (dw', 0%Z) /\ recs dw' k = Some r /\ r_owner r = w /\ is_reserved r
    /\ (In (Srec false k (cleared r)) l -> recs d' k = None).
Proof.
  intros k Hc Ha Hw Ho Sd Om Io Nc E. destruct (reservation_lost dw d g w n c f l d' Hc Ha Hw Ho Sd Io Nc E) as (dw' & r & H1 & H2 & H3 & H4 & H5).
  exists dw', r. repeat (split; [assumption|]). intros Hr. destruct (H5 Hr) as [Q|(_ & o & Eo & M)]; [exact Q|]. destruct M. rewrite <- (Om o Eo). apply may_same.
Qed.
Lemma unreserve_silent d g w n c : let k := reservation_key n c in
  name_ok c -> no_nul w -> (forall o, recs d k = Some o -> no_nul (r_owner o) /\ (r_owner o = w \/ w = B "/")) -> (indexed d k = true <-> wants_sync d k) ->
  exists d', kv_unreserve d g w n c true = Ok (d', 0%Z) /\ (exists r, recs d' k = Some r /\ ~ is_reserved r) /\ indexed d' k = false.
Proof.
  intros k Hc Hw Ho Ix. set (new := Rec 0 0 g w []).
  assert (G : exists d', kv_unreserve d g w n c true = Ok (d', 0%Z) /\ recs d' k = Some new).
  { unfold kv_unreserve. rewrite (proj1 (name_bad c) Hc). unfold do_reserve. cbn [andb negb]. change (has 0 FL_ALIGN) with false. cbn match. unfold kvs_set. rewrite res_key. fold k. unfold cb_reserve.
    destruct (recs d k) as [o|] eqn:Er.
    - destruct (Ho o eq_refl) as (No & Ow). assert (M : mod_match (r_owner o) w = MOD_MATCH \/ mod_match (r_owner o) w = MOD_CORE_MATCH).
      { destruct (list_eq_dec ascii_dec w (B "/")) as [Eq|Nq]; [right; apply core_lemma, Eq|left]. destruct Ow as [Ow|Ow]; [|contradiction]. apply same_lemma; auto. }
      destruct M as [->| ->]; eexists; (split; [reflexivity|]); rewrite index_recs; apply put_same.
    - eexists; (split; [reflexivity|]); rewrite index_recs; apply put_same. }
  destruct G as (d' & E & R). exists d'. split; [exact E|]. split; [exists new; split; [exact R|intros H; discriminate H]|].
  assert (K : ix_at d' k). { unfold kv_unreserve in E. rewrite (proj1 (name_bad c) Hc) in E. exact (reserve_ix _ _ _ _ _ _ _ _ _ _ k E Ix). }
  apply ix_sy in K. rewrite K, R. reflexivity.
Qed.
Lemma reservation_kept_lemma d l d' k : sane (recs d) -> in_order l -> main_key k -> (forall op q, In q l -> ~ change op k q) -> sync_main d l = Ok d' ->
  (forall r, In r l -> s_key r = k -> r_data (s_rec r) = [] -> (if s_vec r then N.testbit (r_flags (s_rec r)) 4 = true else r_flags (s_rec r) = 16%N) ->
     accepts (recs d k) (r_owner (s_rec r)) (r_seq (s_rec r)) -> recs d' k = Some (s_rec r))
  /\ ((forall r, In r l -> s_key r <> k) -> recs d' k = recs d k).
Proof.
  intros Sd Io Mk Nc E. split.
  - intros r Hr Ek Hd Hf A. subst k. destruct (plain_once d l d' r Sd Io E Hr Mk Nc) as (_ & _ & P). apply P; [exact A|]. intros (_ & Q). destruct (s_vec r); [rewrite Hf in Q; discriminate Q|contradiction].
  - intros N. destruct (sync_lemma d l Sd Io) as (d1 & E1 & G & _). assert (d1 = d') as -> by congruence. exact (untouched _ _ _ G k Mk N Nc).
Qed.
Lemma index_list_of keys d : sorted keys -> (forall k, indexed d k = existsb (key_eqb k) keys) -> index_list d keys.
Proof.
  intros Sk H. split; [exact Sk|]. intros k. rewrite H, existsb_exists. split; [intros I; exists k; split; [exact I|apply key_eqb_refl]|].
  intros (x & Ix & E). destruct (key_eqb_spec k x) as [->|]; [exact Ix|discriminate E].
Qed.
