From Coq Require Import Sorted Permutation.
From Verif Require Import Base Kvs_Model UbrKey_Model UbrKey_Spec UbrKey_Proofs UbrDb_Model UbrPerm_Spec UbrPerm_Proofs UbrDelta_Model UbrDelta_Spec
  UbrDelta_Proofs UbrRec_Model UbrSync_Model UbrSync_Spec.
Local Open Scope nat_scope.

Lemma main_cases k : main_key k -> exists t, k = ":"%char :: t.
Proof. destruct k as [|c t]; [discriminate|]. unfold main_key. cbn. intros E. exists t. congruence. Qed.
Lemma main_op k : main_key k -> get_op_from_key k = OP_SET.
Proof. intros H. destruct (main_cases k H) as (t & ->). reflexivity. Qed.
Lemma change_op op k r : change op k r -> get_op_from_key (s_key r) = op /\ skipn 1 (s_key r) = k /\ op <> OP_SET.
Proof.
  intros (V & H & E). destruct (main_cases k H) as (t & ->). destruct op; [contradiction| |]; rewrite E; (split; [reflexivity|split; [reflexivity|discriminate]]).
Qed.
Lemma main_canon k : main_key k -> canonicalize_key k = k.
Proof. intros H. destruct (main_cases k H) as (t & ->). reflexivity. Qed.
Lemma arch_canon k : canonicalize_key (archive_key k) = archive_of k.
Proof. reflexivity. Qed.
Lemma arch_ne k : k <> archive_of k.
Proof. intros E. apply (f_equal (@length _)) in E. cbn [archive_of length] in E. lia. Qed.
Lemma arch_not_main k : ~ main_key (archive_of k). Proof. discriminate. Qed.

Lemma may_write_ok o w : no_nul (r_owner o) -> no_nul w -> ((0 <=? check_kv_wr_allowed (Some o) w)%Z = true <-> may_write o w).
Proof.
  intros Ho Hw. destruct (wr_lemma o w Ho Hw) as (A & C). destruct (may_write_dec o w Ho Hw) as [M|M].
  - rewrite (A M). tauto.
  - rewrite (C M). split; [|tauto]. intros H. exfalso.
    destruct (not_write_read o w Ho Hw M) as (b & Eb & _). rewrite Eb in H. destruct (N.testbit (r_flags o) 4); [discriminate|]. destruct (N.testbit (r_flags o) b); discriminate.
Qed.
Lemma main_unset_ok old owner seq : (forall o, old = Some o -> no_nul (r_owner o)) -> no_nul owner ->
  (main_unset old owner seq = true <-> accepts old owner seq).
Proof.
  intros Ho Hw. destruct old as [o|]; [|cbn; tauto]. unfold main_unset, accepts.
  rewrite <- (may_write_ok o owner (Ho o eq_refl) Hw), andb_true_iff, orb_true_iff, N.eqb_eq, N.leb_le. tauto.
Qed.
Lemma main_set_ok old v : (forall o, old = Some o -> no_nul (r_owner o)) -> no_nul (r_owner v) ->
  (main_set old v = true <-> accepts old (r_owner v) (r_seq v)).
Proof.
  intros Ho Hw. destruct old as [o|]; [|cbn; tauto]. unfold main_set, accepts.
  rewrite <- (may_write_ok o (r_owner v) (Ho o eq_refl) Hw), andb_true_iff, orb_true_iff, N.eqb_eq, N.leb_le. tauto.
Qed.

(* what will be there at the end of the transaction *)
Definition view (st : sst) : store := recs (commit st).
Lemma fold_none l : forall m x, fold_left (fun m k => put m k None) l m x = if in_dec (list_eq_dec ascii_dec) x l then None else m x.
Proof.
  induction l as [|k l IH]; intros m x; [reflexivity|]. cbn [fold_left]. rewrite IH.
  destruct (in_dec (list_eq_dec ascii_dec) x l) as [I|I], (in_dec (list_eq_dec ascii_dec) x (k :: l)) as [J|J]; try reflexivity.
  - exfalso. apply J. right. exact I.
  - destruct J as [->|J]; [apply put_same|contradiction].
  - apply put_other. intros ->. apply J. left. reflexivity.
Qed.
Lemma view_in st x : In x (s_unset st) -> view st x = None.
Proof. intros H. unfold view, commit. cbn [recs with_recs]. rewrite fold_none. destruct (in_dec _ _ _); [reflexivity|contradiction]. Qed.
Lemma view_out st x : ~ In x (s_unset st) -> view st x = recs (s_db st) x.
Proof. intros H. unfold view, commit. cbn [recs with_recs]. rewrite fold_none. destruct (in_dec _ _ _); [contradiction|reflexivity]. Qed.

Definition touches (st st' : sst) (ks : list bytes) : Prop := forall x, In x (s_unset st') -> In x (s_unset st) \/ In x ks.
Definition sane_db (st : sst) := sane (recs (s_db st)).

(* One unset of the archive key or the key *)
Lemma removal_dec r : {removal r} + {~ removal r}.
Proof.
  unfold removal. destruct (r_data (s_rec r)) as [|? ?]; [|right; intros (H & _); discriminate].
  destruct (s_vec r); [destruct (N.testbit (r_flags (s_rec r)) 4)|destruct (N.eq_dec (r_flags (s_rec r)) 16)];
    ((left; split; (reflexivity || assumption)) || (right; intros (_ & H); congruence) ).
Qed.
Lemma unset_bool r : (if s_vec r then negb (has (r_flags (s_rec r)) FL_RS) && match r_data (s_rec r) with [] => true | _ => false end
   else negb (r_flags (s_rec r) =? FL_RS)%N && match r_data (s_rec r) with [] => true | _ => false end) = true <-> removal r.
Proof.
  unfold removal. rewrite has_RS. destruct (s_vec r); rewrite andb_true_iff, negb_true_iff.
  - destruct (r_data (s_rec r)); intuition congruence.
  - rewrite N.eqb_neq. unfold FL_RS. destruct (r_data (s_rec r)); intuition congruence.
Qed.

(* the second half of a plain record: the archive *)
Lemma trans_unset_view st key owner seq : let k := canonicalize_key key in
  ~ In k (s_unset st) -> (forall o, recs (s_db st) k = Some o -> no_nul (r_owner o)) -> no_nul owner ->
  let st' := trans_unset st key owner seq None in
  (forall x, x <> k -> view st' x = view st x)
  /\ (accepts (view st k) owner seq -> view st' k = None) /\ (~ accepts (view st k) owner seq -> view st' k = view st k)
  /\ touches st st' [k] /\ s_db st' = s_db st.
Proof.
  intros k Nk Ho Hw st'. rewrite (view_out st k Nk). unfold st', trans_unset. fold k.
  pose proof (main_unset_ok (recs (s_db st) k) owner seq Ho Hw) as M. destruct (main_unset _ _ _).
  - destruct st as [d u rl]. cbn [s_db s_unset s_rel] in *.
    assert (Ed : with_recs d (recs d) = d) by (destruct d; reflexivity). rewrite Ed.
    assert (Vk : view (Sst d (u ++ [k]) rl) k = None) by (apply view_in; cbn [s_unset]; apply in_or_app; right; left; reflexivity).
    split; [|split; [|split; [|split]]]; [| | | |reflexivity].
    + intros x Nx. destruct (bytes_dec x u) as [I|I].
      * rewrite !view_in; [reflexivity|exact I|cbn [s_unset]; apply in_or_app; left; exact I].
      * rewrite !view_out; [reflexivity|exact I|]. cbn [s_unset]. intros J. apply in_app_or in J as [J|[J|[]]]; [contradiction|congruence].
    + intros _. exact Vk.
    + intros N. exfalso. apply N, M. reflexivity.
    + intros x Hx. cbn [s_unset] in *. apply in_app_or in Hx as [|]; [left|right]; assumption.
  - split; [reflexivity|]. split; [intros A; apply M in A; discriminate|]. split; [intros _; apply view_out, Nk|]. split; [intros x Hx; left; exact Hx|reflexivity].
Qed.
Lemma trans_unset_arch_view st key owner seq akey : let k := canonicalize_key key in let a := canonicalize_key akey in
  ~ In k (s_unset st) -> ~ In a (s_unset st) -> k <> a -> (forall o, recs (s_db st) k = Some o -> no_nul (r_owner o)) -> no_nul owner ->
  let st' := trans_unset st key owner seq (Some akey) in
  (forall x, x <> k -> x <> a -> view st' x = view st x)
  /\ (accepts (view st k) owner seq -> view st' k = None) /\ (~ accepts (view st k) owner seq -> view st' k = view st k)
  /\ (accepts (view st k) owner seq -> view st k <> None -> view st' a = view st k)
  /\ (~ accepts (view st k) owner seq \/ view st k = None -> view st' a = view st a)
  /\ touches st st' [k] /\ (forall x o, recs (s_db st') x = Some o -> exists y, recs (s_db st) y = Some o)
  /\ (forall x, x <> a -> recs (s_db st') x = recs (s_db st) x).
Proof.
  intros k a Nk Na Ka Ho Hw st'. rewrite (view_out st k Nk), (view_out st a Na). unfold st', trans_unset. fold k a.
  pose proof (main_unset_ok (recs (s_db st) k) owner seq Ho Hw) as M. destruct (main_unset _ _ _).
  - assert (A : accepts (recs (s_db st) k) owner seq) by (apply M; reflexivity).
    destruct st as [d u rl]. cbn [s_db s_unset s_rel] in *. set (m := match recs d k with Some o => _ | None => _ end).
    assert (Vk : view (Sst (with_recs d m) (u ++ [k]) rl) k = None) by (apply view_in; cbn [s_unset]; apply in_or_app; right; left; reflexivity).
    assert (Nu : forall x, x <> k -> ~ In x u -> view (Sst (with_recs d m) (u ++ [k]) rl) x = m x).
    { intros x Nx I. rewrite view_out; [reflexivity|]. cbn [s_unset]. intros J. apply in_app_or in J as [J|[J|[]]]; [contradiction|congruence]. }
    assert (Mo : forall x, x <> a -> m x = recs d x) by (intros x Nx; unfold m; destruct (recs d k); [apply put_other, Nx|reflexivity]).
    split; [|split; [|split; [|split; [|split; [|split; [|split]]]]]].
    + intros x Nx Nxa. destruct (bytes_dec x u) as [I|I].
      * rewrite !view_in; [reflexivity|exact I|cbn [s_unset]; apply in_or_app; left; exact I].
      * rewrite (Nu x Nx I), (view_out _ x) by exact I. apply Mo, Nxa.
    + intros _. exact Vk.
    + intros N. contradiction.
    + intros _ Hn. rewrite Nu by (congruence || assumption). unfold m. destruct (recs d k); [apply put_same|congruence].
    + intros [N|E]; [contradiction|]. rewrite Nu by (congruence || assumption). unfold m. rewrite E. reflexivity.
    + intros x Hx. cbn [s_unset] in *. apply in_app_or in Hx as [|]; [left|right]; assumption.
    + cbn [recs with_recs]. intros x o E. destruct (list_eq_dec ascii_dec x a) as [->|Nx]; [|rewrite Mo in E by exact Nx; exists x; exact E].
      unfold m in E. destruct (recs d k) as [o'|] eqn:Ek; [rewrite put_same in E; exists k; congruence|exists a; exact E].
    + cbn [recs with_recs]. exact Mo.
  - assert (A : ~ accepts (recs (s_db st) k) owner seq) by (intros A; apply M in A; discriminate).
    split; [reflexivity|]. split; [contradiction|]. split; [intros _; apply view_out, Nk|]. split; [contradiction|].
    split; [intros _; apply view_out, Na|]. split; [intros x Hx; left; exact Hx|]. split; [intros x o E; exists x; exact E|reflexivity].
Qed.

Lemma accepts_dec old owner seq : (forall o, old = Some o -> no_nul (r_owner o)) -> no_nul owner -> {accepts old owner seq} + {~ accepts old owner seq}.
Proof.
  intros Ho Hw. pose proof (main_unset_ok old owner seq Ho Hw) as M. destruct (main_unset old owner seq); [left; tauto|right].
  intros A. apply M in A. discriminate.
Qed.
Lemma set_rel_view st b : view (set_rel st b) = view st. Proof. reflexivity. Qed.
Definition owners (m : store) : Prop := forall k r, m k = Some r -> no_nul (r_owner r).
Lemma plain_step st r : main_key (s_key r) -> owners (recs (s_db st)) -> no_nul (r_owner (s_rec r)) ->
  ~ In (s_key r) (s_unset st) -> ~ In (archive_of (s_key r)) (s_unset st) ->
  exists st', sync_step st r = Ok st' /\ plain_effect (view st) (view st') r /\ touches st st' [s_key r; archive_of (s_key r)] /\ owners (recs (s_db st')).
Proof.
  intros Mk So Hw Nk Na. unfold sync_step. cbv zeta. destruct r as [vec k v]. cbn [s_vec s_key s_rec] in *.
  assert (Op : (if vec then get_op_from_key k else OP_SET) = OP_SET) by (destruct vec; [apply main_op, Mk|reflexivity]). rewrite Op.
  pose proof (unset_bool (Srec vec k v)) as U. cbn [s_vec s_key s_rec] in U. rewrite has_AR.
  pose proof (arch_ne k) as Ka. pose proof (main_canon k Mk) as Ck.
  assert (Hk : forall o, recs (s_db st) k = Some o -> no_nul (r_owner o)) by (intros o E; exact (So k o E)).
  match type of U with ?u = true <-> _ => destruct u eqn:Eu end.
  - assert (R : removal (Srec vec k v)) by (apply U; reflexivity).
    destruct (N.testbit (r_flags v) 3) eqn:Ar.
    + eexists; split; [reflexivity|].
      destruct (trans_unset_arch_view (set_rel st false) k (r_owner v) (r_seq v) (archive_key k)) as (V1 & V2 & V3 & V4 & V5 & T & O & _);
        rewrite ?arch_canon, ?Ck; cbn [set_rel s_unset s_db]; try assumption.
      rewrite arch_canon, Ck in *. rewrite set_rel_view in *. split; [|split].
      * unfold plain_effect. cbn [s_vec s_key s_rec]. unfold keeps_archive. cbn [s_rec].
        repeat apply conj; try assumption; intros; try contradiction; try congruence. all: tauto.
      * intros x Hx. destruct (T x Hx) as [|[|[]]]; [left; assumption|right; left; assumption].
      * intros x o E. destruct (O x o E) as (y & Ey). exact (So y o Ey).
    + destruct (trans_unset_view (set_rel st false) k (r_owner v) (r_seq v)) as (V1 & V2 & V3 & T & D);
        rewrite ?Ck; cbn [set_rel s_unset s_db]; try assumption.
      rewrite Ck in *. set (st1 := trans_unset (set_rel st false) k (r_owner v) (r_seq v) None) in *. rewrite set_rel_view in *.
      destruct (trans_unset_view st1 (archive_key k) (r_owner v) (r_seq v)) as (W1 & W2 & W3 & T' & D').
      { rewrite arch_canon. intros H. destruct (T _ H) as [|[|[]]]; [contradiction|congruence]. }
      { rewrite D. intros o E. exact (So _ _ E). }
      { exact Hw. }
      rewrite arch_canon in *. assert (Va : view st1 (archive_of k) = view st (archive_of k)) by (apply V1; congruence). rewrite Va in *.
      eexists; split; [reflexivity|]. split; [|split].
      * unfold plain_effect. cbn [s_vec s_key s_rec]. unfold keeps_archive. cbn [s_rec]. rewrite Ar.
        repeat apply conj; intros; try discriminate; try contradiction; try (rewrite W1 by congruence); auto.
      * intros x Hx. destruct (T' x Hx) as [H|[<-|[]]]; [|right; right; left; reflexivity].
        destruct (T x H) as [|[<-|[]]]; [left; assumption|right; left; reflexivity].
      * rewrite D', D. exact So.
  - assert (R : ~ removal (Srec vec k v)) by (intros H; apply U in H; discriminate). rewrite Ck, arch_canon.
    pose proof (main_set_ok (recs (s_db st) k) v Hk Hw) as M. rewrite <- (view_out st k Nk) in M.
    set (st1 := if main_set _ _ then _ else _).
    assert (P : (forall x, x <> k -> x <> archive_of k -> view st1 x = view st x) /\ s_unset st1 = s_unset st
       /\ (~ accepts (view st k) (r_owner v) (r_seq v) -> view st1 k = view st k)
       /\ (accepts (view st k) (r_owner v) (r_seq v) -> view st1 k = Some v)
       /\ view st1 (archive_of k) = (if N.testbit (r_flags v) 3 then (if main_set (recs (s_db st) k) v then match view st k with Some o => Some o | None => view st (archive_of k) end else view st (archive_of k)) else view st (archive_of k))
       /\ owners (recs (s_db st1))).
    { unfold st1. rewrite (view_out st k Nk) in *. rewrite (view_out st (archive_of k) Na) in *. destruct (main_set (recs (s_db st) k) v) eqn:Em.
      - assert (A : accepts (recs (s_db st) k) (r_owner v) (r_seq v)) by (apply M; reflexivity).
        destruct st as [d u rl]. cbn [s_db s_unset s_rel] in *. set (m := match recs d k with Some o => _ | None => _ end).
        assert (Mo : forall x, x <> k -> x <> archive_of k -> m x = recs d x).
        { intros x N1 N2. unfold m. destruct (recs d k); [destruct (N.testbit (r_flags v) 3); [rewrite put_other by exact N2|]|]; apply put_other, N1. }
        assert (Mk' : m k = Some v).
        { unfold m. destruct (recs d k); [destruct (N.testbit (r_flags v) 3); [rewrite put_other by exact Ka|]|]; apply put_same. }
        assert (Ma : m (archive_of k) = if N.testbit (r_flags v) 3 then match recs d k with Some o => Some o | None => recs d (archive_of k) end else recs d (archive_of k)).
        { unfold m. destruct (recs d k) as [o|]; destruct (N.testbit (r_flags v) 3); try (apply put_same); apply put_other; congruence. }
        split; [|split; [|split; [|split; [|split]]]].
        + intros x N1 N2. destruct (bytes_dec x u) as [I|I]; [rewrite !view_in by exact I; reflexivity|rewrite !view_out by exact I; apply Mo; assumption].
        + reflexivity.
        + contradiction.
        + intros _. rewrite view_out by exact Nk. exact Mk'.
        + rewrite view_out by exact Na. exact Ma.
        + cbn [s_db with_recs recs]. intros x o E. destruct (list_eq_dec ascii_dec x k) as [->|N1]; [rewrite Mk' in E; assert (o = v) by congruence; subst; exact Hw|].
          destruct (list_eq_dec ascii_dec x (archive_of k)) as [->|N2]; [|rewrite Mo in E by assumption; exact (So x o E)].
          rewrite Ma in E. destruct (N.testbit (r_flags v) 3); [|exact (So _ _ E)]. destruct (recs d k) as [o'|] eqn:E'; [|exact (So _ _ E)].
          assert (o' = o) by congruence. subst. exact (Hk o eq_refl).
      - split; [reflexivity|]. split; [reflexivity|]. split; [intros _; apply view_out, Nk|]. split; [intros A; apply M in A; discriminate|].
        split; [destruct (N.testbit (r_flags v) 3); apply view_out, Na|exact So]. }
    destruct P as (P1 & P2 & P3 & P4 & P5 & P6). clearbody st1. rewrite <- (view_out st k Nk) in P5.
    destruct (N.testbit (r_flags v) 3) eqn:Ar.
    + exists st1. split; [reflexivity|]. split; [|split; [intros x Hx; left; rewrite P2 in Hx; exact Hx|exact P6]].
      unfold plain_effect. cbn [s_vec s_key s_rec]. unfold keeps_archive. cbn [s_rec]. rewrite Ar.
      repeat apply conj; intros; try contradiction; try congruence; auto.
      * rewrite P5. destruct (main_set _ _); [destruct (view st k); [reflexivity|congruence]|exfalso]. assert (false = true) by (apply M; assumption). discriminate.
      * rewrite P5. destruct (main_set _ _); [|reflexivity]. destruct (view st k); [|reflexivity].
        match goal with H : _ \/ _ |- _ => destruct H as [H|H] end; [exfalso; tauto|discriminate].
    + destruct (trans_unset_view (set_rel st1 false) (archive_key k) (r_owner v) (r_seq v)) as (W1 & W2 & W3 & T' & D').
      { rewrite arch_canon. cbn [set_rel s_unset]. rewrite P2. exact Na. }
      { cbn [set_rel s_db]. intros o E. exact (P6 _ _ E). }
      { exact Hw. }
      rewrite arch_canon in *. rewrite set_rel_view in *. rewrite P5 in W2, W3.
      eexists; split; [reflexivity|]. split; [|split].
      * unfold plain_effect. cbn [s_vec s_key s_rec]. unfold keeps_archive. cbn [s_rec]. rewrite Ar.
        repeat apply conj; intros; try discriminate; try contradiction; try (rewrite W1 by congruence); auto.
      * intros x Hx. destruct (T' x Hx) as [H|[<-|[]]]; [left; cbn [set_rel s_unset] in H; rewrite P2 in H; exact H|right; right; left; reflexivity].
      * rewrite D'. exact P6.
Qed.

Lemma plains_lemma ps : forall st, Forall (fun r => main_key (s_key r)) ps -> NoDup (map s_key ps) ->
  Forall (fun r => sorted (r_data (s_rec r)) /\ no_nul (r_owner (s_rec r))) ps -> owners (recs (s_db st)) ->
  (forall r, In r ps -> ~ In (s_key r) (s_unset st) /\ ~ In (archive_of (s_key r)) (s_unset st)) ->
  exists st', sync_steps st ps = Ok st' /\ effects (view st) ps (view st').
Proof.
  induction ps as [|r ps IH]; intros st Hm Hn Hs So Hu.
  - exists st. split; [reflexivity|]. constructor. reflexivity.
  - inversion Hm as [|? ? Mr Ms]; subst. inversion Hn as [|? ? Nr Ns]; subst. inversion Hs as [|? ? Sr Ss]; subst.
    destruct (Hu r (or_introl eq_refl)) as (U1 & U2).
    destruct (plain_step st r Mr So (proj2 Sr) U1 U2) as (st1 & E1 & P1 & T1 & O1).
    destruct (IH st1 Ms Ns Ss O1) as (st2 & E2 & P2).
    { intros r' Hr'. destruct (Hu r' (or_intror Hr')) as (U3 & U4).
      assert (Ne : s_key r' <> s_key r) by (intros E; apply Nr; rewrite <- E; apply in_map, Hr').
      assert (Mr' : main_key (s_key r')) by (rewrite Forall_forall in Ms; apply Ms, Hr').
      split; intros H; destruct (T1 _ H) as [X|[X|[X|[]]]]; try contradiction; try congruence.
      - rewrite <- X in Mr'. exact (arch_not_main _ Mr').
      - rewrite X in Mr. exact (arch_not_main _ Mr).
      - apply Ne. unfold archive_of in X. congruence. }
    exists st2. split; [cbn [sync_steps]; rewrite E1; exact E2|]. econstructor; eassumption.
Qed.
Lemma write_change d k h op new : h_owner h = B "/" -> sorted new -> sorted (listed (recs d) k) ->
  exists d' s f, delta_write d k h op new true = DOk (d', 0%Z, s) /\ d_final s = Some f /\ (forall x, x <> k -> recs d' x = recs d x)
    /\ recs d' k = Some (Rec (h_seq h) (h_flags h) (h_gen h) (h_owner h) (items f)) /\ sorted (items f)
    /\ forall x, In x (items f) <-> result op (listed (recs d) k) new x.
Proof.
  intros Ow Sn So. unfold delta_write. rewrite Ow. change (B "/") with OWNER_CORE at 1. rewrite core_allowed. cbn [Z.ltb Z.compare].
  destruct (step_lemma op (data_at d k) new) as (p & m & rr & f & Es & (_ & _ & Sf & Hf & _) & _).
  { rewrite members_data. exact So. }
  { exact Sn. }
  rewrite Es. cbn [d_final]. do 3 eexists. split; [reflexivity|]. split; [reflexivity|]. cbn [recs items].
  split; [intros x Nx; apply put_other, Nx|]. split; [rewrite put_same; unfold rec_with; rewrite Ow; reflexivity|]. split; [exact Sf|].
  intros x. rewrite Hf, members_data. reflexivity.
Qed.
Lemma change_step st r op k : change op k r -> r_owner (s_rec r) = B "/" -> N.testbit (r_flags (s_rec r)) 4 = true -> sorted (r_data (s_rec r)) ->
  sorted (listed (recs (s_db st)) k) -> s_rel st = true ->
  exists d, sync_step st r = Ok (Sst d (s_unset st) true) /\ change_effect (recs (s_db st)) (recs d) op k r.
Proof.
  intros C Ow Rs Sn So Rl. destruct (change_op op k r C) as (Eo & Ek & No). destruct C as (V & Mk & _).
  unfold sync_step. cbv zeta. rewrite V, Eo, has_RS, Rs. cbn [negb andb].
  assert (Ekey : match op with OP_SET => s_key r | _ => skipn 1 (s_key r) end = k) by (destruct op; [contradiction|exact Ek..]).
  rewrite Ekey. clear Ekey. rewrite (main_canon k Mk), Rl. cbn [negb].
  destruct (write_change (s_db st) k (Hdr (r_seq (s_rec r)) (r_flags (s_rec r)) (r_gen (s_rec r)) (r_owner (s_rec r))) op (r_data (s_rec r)) Ow Sn So)
    as (d & s & f & E & F & G1 & G2 & G3 & G4).
  rewrite E, F. exists d. split; [destruct op; [contradiction|reflexivity..]|].
  split; [exact G1|]. exists (items f). split; [exact G2|]. split; assumption.
Qed.
Lemma effects_app m l m' : effects m l m' -> forall l' m'', effects m' l' m'' -> effects m (l ++ l') m''.
Proof.
  induction 1 as [m m' E|m m1 m' r l Hm He Hl IH|m m1 m' op k r l Hc He Hl IH]; intros l' m'' H2; cbn [app].
  - revert E. clear - H2. intros E.
    inversion H2 as [? ? E'|? m1 ? r l Mr P R|? m1 ? op k r l C P R]; subst.
    + constructor. intros x. rewrite E'. apply E.
    + econstructor; [exact Mr| |exact R]. unfold plain_effect in *. cbv zeta in *. rewrite <- !E. destruct P as (P1 & P2). split; [intros x N1 N2; rewrite <- E; apply P1; assumption|exact P2].
    + econstructor; [exact C| |exact R]. unfold change_effect, listed in *. cbv zeta in *. rewrite <- E. destruct P as (P1 & P2). split; [intros x N1; rewrite <- E; apply P1; assumption|exact P2].
  - econstructor; [exact Hm|exact He|]. apply IH, H2.
  - econstructor; [exact Hc|exact He|]. apply IH, H2.
Qed.
Lemma changes_lemma ds : forall st, Forall core_change ds -> Forall (fun r => sorted (r_data (s_rec r)) /\ no_nul (r_owner (s_rec r))) ds ->
  sane (recs (s_db st)) -> s_unset st = [] -> s_rel st = true ->
  exists d, sync_steps st ds = Ok (Sst d [] true) /\ effects (recs (s_db st)) ds (recs d) /\ sane (recs d).
Proof.
  induction ds as [|r ds IH]; intros st Hc Hs Sd Un Rl.
  - exists (s_db st). destruct st as [d u rl]. cbn [s_unset s_rel s_db] in *. subst. split; [reflexivity|]. split; [constructor; reflexivity|exact Sd].
  - inversion Hc as [|? ? ((op & k & C) & Ow & Rs) Cs]; subst. inversion Hs as [|? ? (Sr & Nr) Ss]; subst.
    destruct Sd as (S1 & S2). assert (Mk : main_key k) by apply C.
    destruct (change_step st r op k C Ow Rs Sr (S1 k Mk) Rl) as (d & E & G). rewrite Un in E.
    assert (Sd : sane (recs d)).
    { destruct G as (G1 & l & G2 & G3 & _). split.
      - intros x Mx. unfold listed. destruct (list_eq_dec ascii_dec x k) as [->|Nx]; [rewrite G2; exact G3|rewrite G1 by exact Nx; apply S1, Mx].
      - intros x v E'. destruct (list_eq_dec ascii_dec x k) as [->|Nx]; [|rewrite G1 in E' by exact Nx; exact (S2 x v E')].
        rewrite G2 in E'. assert (v = Rec (r_seq (s_rec r)) (r_flags (s_rec r)) (r_gen (s_rec r)) (r_owner (s_rec r)) l) by congruence. subst v. exact Nr. }
    destruct (IH (Sst d [] true) Cs Ss Sd eq_refl eq_refl) as (d' & E' & G' & S').
    exists d'. split; [cbn [sync_steps]; rewrite E; exact E'|]. split; [|exact S']. econstructor; eassumption.
Qed.
Lemma sync_steps_app a b st : sync_steps st (a ++ b) = match sync_steps st a with Ok st => sync_steps st b | UB => UB end.
Proof. revert st; induction a as [|r a IH]; intros st; [reflexivity|]. cbn [app sync_steps]. destruct (sync_step st r); [apply IH|reflexivity]. Qed.
Lemma effects_sane m l m' : effects m l m' -> sane m -> Forall (fun r => sorted (r_data (s_rec r)) /\ no_nul (r_owner (s_rec r))) l -> sane m'.
Proof.
  induction 1 as [m m' E|m m1 m' r l Hm He Hl IH|m m1 m' op k r l Hc He Hl IH]; intros (S1 & S2) Hs.
  - split; [intros k Mk; unfold listed; rewrite E; apply S1, Mk|intros k r R; rewrite E in R; exact (S2 k r R)].
  - inversion Hs as [|? ? (Sr & Nr) Ss]; subst. apply IH; [|exact Ss].
    destruct He as (E1 & E2 & E3 & E4 & E5 & E6 & E7 & E8).
    assert (Ho : forall o, m (s_key r) = Some o -> no_nul (r_owner o)) by (intros o; apply S2).
    assert (Ha : forall o, m (archive_of (s_key r)) = Some o -> no_nul (r_owner o)) by (intros o; apply S2).
    assert (K : m1 (s_key r) = m (s_key r) \/ m1 (s_key r) = None \/ m1 (s_key r) = Some (s_rec r)).
    { destruct (accepts_dec _ (r_owner (s_rec r)) (r_seq (s_rec r)) Ho Nr) as [A|A]; [destruct (removal_dec r)|]; auto. }
    assert (A : m1 (archive_of (s_key r)) = m (archive_of (s_key r)) \/ m1 (archive_of (s_key r)) = None \/ m1 (archive_of (s_key r)) = m (s_key r)).
    { unfold keeps_archive in *. destruct (N.testbit (r_flags (s_rec r)) 3).
      - destruct (accepts_dec _ (r_owner (s_rec r)) (r_seq (s_rec r)) Ho Nr) as [A|A]; [|auto].
        destruct (m (s_key r)) eqn:Em; [right; right; rewrite E5 by (auto || discriminate); reflexivity|left; auto].
      - destruct (accepts_dec _ (r_owner (s_rec r)) (r_seq (s_rec r)) Ha Nr) as [A|A]; [right; left|left]; auto. }
    split.
    + intros x Mx. unfold listed. destruct (list_eq_dec ascii_dec x (s_key r)) as [->|N1].
      * destruct K as [->|[-> | ->]]; [apply S1, Mx|constructor|exact Sr].
      * rewrite E1; [apply S1, Mx|exact N1|]. intros ->. exact (arch_not_main _ Mx).
    + intros x v E. destruct (list_eq_dec ascii_dec x (s_key r)) as [->|N1].
      * destruct K as [K|[K|K]]; rewrite K in E; [exact (S2 _ _ E)|discriminate|]. assert (v = s_rec r) by congruence. subst. exact Nr.
      * destruct (list_eq_dec ascii_dec x (archive_of (s_key r))) as [->|N2]; [|rewrite E1 in E by assumption; exact (S2 _ _ E)].
        destruct A as [A|[A|A]]; rewrite A in E; [exact (S2 _ _ E)|discriminate|exact (S2 _ _ E)].
  - inversion Hs as [|? ? (Sr & Nr) Ss]; subst. apply IH; [|exact Ss]. destruct He as (G1 & l' & G2 & G3 & _). split.
    + intros x Mx. unfold listed. destruct (list_eq_dec ascii_dec x k) as [->|Nx]; [rewrite G2; exact G3|rewrite G1 by exact Nx; apply S1, Mx].
    + intros x v E'. destruct (list_eq_dec ascii_dec x k) as [->|Nx]; [|rewrite G1 in E' by exact Nx; exact (S2 x v E')].
      rewrite G2 in E'. apply some_inj in E'. subst v. exact Nr.
Qed.
Lemma commit_view d : forall x, view (Sst d [] true) x = recs d x.
Proof. intros x. apply view_out. intros []. Qed.
Lemma sync_lemma d l : sane (recs d) -> in_order l -> exists d', sync_main d l = Ok d' /\ effects (recs d) l (recs d') /\ sane (recs d').
Proof.
  intros Sd ((ds & ps & -> & Hd & Hp & Hn) & Hs). apply Forall_app in Hs as (Hs1 & Hs2).
  destruct (changes_lemma ds (Sst d [] true) Hd Hs1 Sd eq_refl eq_refl) as (d1 & E1 & G1 & S1).
  destruct (plains_lemma ps (Sst d1 [] true) Hp Hn Hs2) as (st2 & E2 & G2).
  { exact (proj2 S1). }
  { intros r _. split; intros []. }
  exists (commit st2). unfold sync_main. rewrite sync_steps_app, E1, E2. split; [reflexivity|].
  assert (G : effects (recs d) (ds ++ ps) (recs (commit st2))).
  { apply effects_app with (m' := recs d1); [exact G1|]. change (recs (commit st2)) with (view st2).
    apply (effects_app _ [] (view (Sst d1 [] true))); [constructor; apply commit_view|exact G2]. }
  split; [exact G|]. eapply effects_sane; [exact G|exact Sd|]. apply Forall_app. split; assumption.
Qed.
