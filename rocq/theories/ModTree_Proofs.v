From Verif Require Import Base UtilStr_Model ModReg_Model ModReg_Spec ModReg_Proofs ModTree_Model ModTree_Spec.
Local Open Scope nat_scope.

Lemma put_same {A} (l : list A) i x : i < length l -> nth_error (put l i x) i = Some x.
Proof. intros H. unfold put. rewrite nth_error_app2; rewrite firstn_length_le by lia; [|lia]. rewrite Nat.sub_diag. reflexivity. Qed.
Lemma put_other {A} (l : list A) i j x : i < length l -> j <> i -> nth_error (put l i x) j = nth_error l j.
Proof.
  intros H N. rewrite <- (firstn_skipn i l) at 2. unfold put. destruct (lt_dec j i) as [L|L].
  - rewrite !nth_error_app1 by (rewrite firstn_length_le; lia). reflexivity.
  - rewrite !nth_error_app2 by (rewrite firstn_length_le; lia). rewrite firstn_length_le by lia.
    assert (E : j - i = S (j - i - 1)) by lia. rewrite E. cbn [nth_error].
    destruct (skipn i l) as [|y t] eqn:ES.
    + apply (f_equal (@length _)) in ES. rewrite skipn_length in ES. cbn in ES. lia.
    + assert (ET : skipn (S i) l = t) by (change (S i) with (1 + i); rewrite Nat.add_comm; rewrite <- (skipn_skipn 1 i l) || idtac; revert ES; clear; revert i; induction l as [|a l IH]; intros [|i] E; cbn [skipn] in *; try discriminate; [injection E as _ E; exact E|exact (IH i E)]).
      rewrite ET. cbn [nth_error]. reflexivity.
Qed.
Lemma put_length {A} (l : list A) i x : i < length l -> length (put l i x) = length l.
Proof. intros H. unfold put. rewrite app_length, firstn_length_le by lia. cbn [length]. rewrite skipn_length. lia. Qed.

Definition slashes (s : bytes) : nat := count_occ ascii_dec s SLASH.
Record loc (s : tree) : Prop := Loc {
  loc_reg : forall g k, reg_at s g = Some k -> match t_parent k with
     | None => t_base k = B "/" ++ t_id k /\ t_top k = g
     | Some m => exists km kr, mod_at s m = Some km /\ reg_at s (t_reg km) = Some kr /\ t_base k = t_full km ++ B "/" ++ t_id k /\ t_top k = t_top kr end;
  loc_mod : forall m k, mod_at s m = Some k -> exists kr, reg_at s (t_reg k) = Some kr /\ t_full k = t_base kr ++ B "/" ++ t_name k /\ no_slash (t_name k);
  loc_path : forall n, exists_node s n -> exists p x, path s n p /\ root s n x }.

Lemma slashes_app a b : slashes (a ++ b) = slashes a + slashes b.
Proof. unfold slashes. apply count_occ_app. Qed.
Lemma slashes_none a : no_slash a -> slashes a = 0.
Proof. intros N. unfold slashes. apply count_occ_not_In. exact N. Qed.
Lemma slashes_base s : loc s -> forall g k, reg_at s g = Some k -> 1 <= slashes (t_base k).
Proof.
  intros [R M P] g k H. specialize (R g k H). destruct (t_parent k) as [m|].
  - destruct R as (km & kr & _ & _ & -> & _). rewrite !slashes_app. change (slashes (B "/")) with 1. lia.
  - destruct R as (-> & _). rewrite slashes_app. change (slashes (B "/")) with 1. lia.
Qed.
Lemma slashes_firstn n a : slashes (firstn n a) <= slashes a.
Proof. rewrite <- (firstn_skipn n a) at 2. rewrite slashes_app. lia. Qed.
Lemma reset_nth g base l m : nth_error (reset_names g base l) m = match nth_error l m with None => None | Some k =>
   Some (if (t_reg k =? g) && negb (begins (t_full k) base) then let (full, name) := set_module_name base (t_name k) in Tmod g full name else k) end.
Proof. unfold reset_names. rewrite nth_error_map. destruct (nth_error l m); reflexivity. Qed.

(* What attaching does to a registry and its modules *)
Lemma attach_mods s m g km kg : loc s -> mod_at s m = Some km -> reg_at s g = Some kg ->
  forall n k, mod_at s n = Some k -> nth_error (reset_names g (t_full km ++ t_base kg) (tmods s)) n =
    Some (if t_reg k =? g then Tmod g ((t_full km ++ t_base kg) ++ B "/" ++ t_name k) (t_name k) else k).
Proof.
  intros L Hm Hg n k Hn. rewrite reset_nth. unfold mod_at in Hn. rewrite Hn. destruct (Nat.eqb_spec (t_reg k) g) as [E|E]; [|reflexivity]. cbn [andb].
  destruct (loc_mod s L n k Hn) as (kr & Hr & F & NS). rewrite E in Hr. unfold reg_at in *. rewrite Hg in Hr. injection Hr as <-.
  assert (NB : begins (t_full k) (t_full km ++ t_base kg) = false).
  { unfold begins. destruct (list_eq_dec ascii_dec (firstn (length (t_full km ++ t_base kg)) (t_full k)) (t_full km ++ t_base kg)) as [X|]; [|reflexivity]. exfalso.
    apply (f_equal slashes) in X. pose proof (slashes_firstn (length (t_full km ++ t_base kg)) (t_full k)) as Y. rewrite X in Y. rewrite F in Y.
    rewrite !slashes_app in Y. rewrite (slashes_none _ NS) in Y. change (slashes (B "/")) with 1 in Y.
    destruct (loc_mod s L m km Hm) as (kr & Hr & F' & _). rewrite F' in Y. rewrite !slashes_app in Y. change (slashes (B "/")) with 1 in Y.
    pose proof (slashes_base s L _ kr Hr). lia. }
  rewrite NB. cbn [negb]. unfold set_module_name. rewrite (last_part_is _ _ NS). reflexivity.
Qed.

Lemma reg_lt s g k : reg_at s g = Some k -> g < length (regs s).
Proof. unfold reg_at. intros H. apply nth_error_Some. rewrite H. discriminate. Qed.
Lemma mod_lt s g k : mod_at s g = Some k -> g < length (tmods s).
Proof. unfold mod_at. intros H. apply nth_error_Some. rewrite H. discriminate. Qed.
Lemma reset_length g b l : length (reset_names g b l) = length l.
Proof. apply map_length. Qed.

Lemma step_loc s o : loc s -> good_top s o -> loc (tstep s o).
Proof.
  intros L G. destruct o as [id|g id|m g ok]; cbn [tstep].
  - (* new registry *)
    assert (RA : forall g, reg_at (new_reg s id) g = if g =? length (regs s) then Some (Treg id (length (regs s)) ([SLASH] ++ id) None) else reg_at s g).
    { intros g. unfold new_reg, reg_at. cbn [regs]. destruct (Nat.eqb_spec g (length (regs s))) as [->|N].
      - rewrite nth_error_app2 by lia. rewrite Nat.sub_diag. reflexivity.
      - destruct (lt_dec g (length (regs s))) as [X|X]; [rewrite nth_error_app1 by exact X; reflexivity|].
        rewrite nth_error_app2 by lia. rewrite (proj2 (nth_error_None (regs s) g)) by lia. destruct (g - length (regs s)) as [|k] eqn:E; [lia|]. cbn. destruct k; reflexivity. }
    assert (RO : forall g k, reg_at s g = Some k -> reg_at (new_reg s id) g = Some k).
    { intros g k H. rewrite RA. pose proof (reg_lt s g k H). destruct (Nat.eqb_spec g (length (regs s))); [lia|exact H]. }
    assert (MO : forall m, mod_at (new_reg s id) m = mod_at s m) by reflexivity.
    constructor.
    + intros g k H. rewrite RA in H. destruct (Nat.eqb_spec g (length (regs s))) as [->|N].
      * injection H as <-. cbn [t_parent t_base t_id t_top]. split; reflexivity.
      * pose proof (loc_reg s L g k H) as R. destruct (t_parent k) as [m|]; [|exact R]. destruct R as (km & kr & A & B & C & D). exists km, kr.
        split; [exact A|]. split; [apply RO; exact B|]. split; assumption.
    + intros m k H. destruct (loc_mod s L m k H) as (kr & A & B). exists kr. split; [apply RO; exact A|exact B].
    + assert (KP : forall n p, path s n p -> path (new_reg s id) n p).
      { intros n p H. induction H; [eapply path_top|eapply path_reg|eapply path_mod]; eauto. }
      assert (KR : forall n p, root s n p -> root (new_reg s id) n p).
      { intros n p H. induction H; [eapply root_top|eapply root_reg|eapply root_mod]; eauto. }
      intros n E. destruct n as [g|m].
      * cbn in E. rewrite app_length in E. cbn in E. destruct (Nat.eq_dec g (length (regs s))) as [->|N].
        -- eexists _, _. split; [eapply path_top|eapply root_top]; try (rewrite RA, Nat.eqb_refl; reflexivity); reflexivity.
        -- destruct (loc_path s L (NReg g)) as (p & x & A & B); [cbn; lia|]. exists p, x. split; auto.
      * destruct (loc_path s L (NMod m)) as (p & x & A & B); [exact E|]. exists p, x. split; auto.
  - (* new module *)
    unfold new_mod. destruct (reg_at s g) as [kg|] eqn:EG; [|exact L]. unfold set_module_name. set (s' := Tree _ _).
    cbn [good_top] in G. assert (NM : last_part (t_base kg ++ [SLASH] ++ id) = id) by exact (last_part_is _ _ G). subst s'. rewrite NM. set (s' := Tree _ _).
    assert (MO : forall m k, mod_at s m = Some k -> mod_at s' m = Some k).
    { intros m k H. unfold mod_at, s' in *. cbn [tmods]. rewrite nth_error_app1; [exact H|]. apply nth_error_Some. rewrite H. discriminate. }
    assert (RO : forall g, reg_at s' g = reg_at s g) by reflexivity.
    assert (ML : mod_at s' (length (tmods s)) = Some (Tmod g (t_base kg ++ [SLASH] ++ id) id)).
    { unfold mod_at, s'. cbn [tmods]. rewrite nth_error_app2 by lia. rewrite Nat.sub_diag. reflexivity. }
    assert (MI : forall m k, mod_at s' m = Some k -> mod_at s m = Some k \/ (m = length (tmods s) /\ k = Tmod g (t_base kg ++ [SLASH] ++ id) id)).
    { intros m k H. destruct (lt_dec m (length (tmods s))) as [X|X].
      - left. unfold mod_at, s' in *. cbn [tmods] in H. rewrite nth_error_app1 in H by exact X. exact H.
      - right. pose proof (mod_lt s' m k H) as Y. unfold s' in Y. cbn [tmods] in Y. rewrite app_length in Y. cbn in Y. assert (m = length (tmods s)) by lia. subst m.
        rewrite ML in H. injection H as <-. split; reflexivity. }
    constructor.
    + intros h k H. rewrite RO in H. pose proof (loc_reg s L h k H) as R. destruct (t_parent k) as [m|]; [|exact R]. destruct R as (km & kr & A & B & C & D).
      exists km, kr. split; [apply MO; exact A|]. split; [exact B|]. split; assumption.
    + intros m k H. destruct (MI m k H) as [H'|(-> & ->)]; [exact (loc_mod s L m k H')|]. exists kg. split; [exact EG|]. split; [reflexivity|exact G].
    + assert (KP : forall n p, path s n p -> path s' n p).
      { intros n p H. induction H; [eapply path_top|eapply path_reg|eapply path_mod]; eauto. }
      assert (KR : forall n p, root s n p -> root s' n p).
      { intros n p H. induction H; [eapply root_top|eapply root_reg|eapply root_mod]; eauto. }
      intros n E. destruct n as [h|m].
      * destruct (loc_path s L (NReg h)) as (p & x & A & B); [exact E|]. exists p, x. split; auto.
      * destruct (Nat.eq_dec m (length (tmods s))) as [->|N].
        -- destruct (loc_path s L (NReg g)) as (p & x & A & B); [exact (reg_lt s g kg EG)|]. eexists _, _.
           split; [eapply path_mod; [exact ML|]; exact (KP _ _ A)|eapply root_mod; [exact ML|]; exact (KR _ _ B)].
        -- unfold s' in E. cbn in E. rewrite app_length in E. cbn in E. destruct (loc_path s L (NMod m)) as (p & x & A & B); [cbn; lia|]. exists p, x. split; auto.
  - (* attach *)
    destruct G as (Fl & Out & ->). unfold add_subreg. destruct (mod_at s m) as [km|] eqn:EM; [|exact L]. destruct (reg_at s g) as [kg|] eqn:EG; [|exact L].
    destruct (t_parent kg) as [pm|] eqn:EP; [exact L|]. cbn [fst].
    destruct (loc_mod s L m km EM) as (kr & ER & EF & NS). rewrite ER. set (s' := Tree _ _).
    pose proof (reg_lt s g kg EG) as LG. specialize (Out km EM).
    assert (RG : reg_at s' g = Some (Treg (t_id kg) (t_top kr) (t_full km ++ t_base kg) (Some m))) by (unfold reg_at, s'; cbn [regs]; apply put_same; exact LG).
    assert (RO : forall h, h <> g -> reg_at s' h = reg_at s h) by (intros h N; unfold reg_at, s'; cbn [regs]; apply put_other; assumption).
    assert (MA : forall n k, mod_at s n = Some k -> mod_at s' n = Some (if t_reg k =? g then Tmod g ((t_full km ++ t_base kg) ++ B "/" ++ t_name k) (t_name k) else k)).
    { intros n k H. unfold s', mod_at at 1. cbn [tmods]. exact (attach_mods s m g km kg L EM EG n k H). }
    assert (MI : forall n k', mod_at s' n = Some k' -> exists k, mod_at s n = Some k /\ k' = (if t_reg k =? g then Tmod g ((t_full km ++ t_base kg) ++ B "/" ++ t_name k) (t_name k) else k)).
    { intros n k' H. pose proof (mod_lt s' n k' H) as X. unfold s' in X. cbn [tmods] in X. rewrite reset_length in X. apply nth_error_Some in X.
      destruct (nth_error (tmods s) n) as [k|] eqn:E; [|contradiction]. exists k. split; [exact E|]. rewrite (MA n k E) in H. injection H as <-. reflexivity. }
    assert (MM : mod_at s' m = Some km) by (rewrite (MA m km EM); destruct (Nat.eqb_spec (t_reg km) g); [contradiction|reflexivity]).
    pose proof (loc_reg s L g kg EG) as RGL. rewrite EP in RGL. destruct RGL as (BG & TG).
    constructor.
    + intros h k H. destruct (Nat.eq_dec h g) as [->|N].
      * rewrite RG in H. injection H as <-. cbn [t_parent t_base t_id t_top]. exists km, kr. split; [exact MM|]. split; [rewrite RO by exact Out; exact ER|].
        split; [rewrite BG; reflexivity|reflexivity].
      * rewrite RO in H by exact N. pose proof (loc_reg s L h k H) as R. destruct (t_parent k) as [m'|] eqn:EP'; [|exact R]. destruct R as (k1 & k2 & A & B & C & D).
        pose proof (Fl h k m' k1 H EP' A) as NG. exists k1, k2. split; [rewrite (MA m' k1 A); destruct (Nat.eqb_spec (t_reg k1) g); [contradiction|reflexivity]|].
        split; [rewrite RO by exact NG; exact B|]. split; assumption.
    + intros n k' H. destruct (MI n k' H) as (k & A & ->). destruct (loc_mod s L n k A) as (k2 & B & C & D). destruct (Nat.eqb_spec (t_reg k) g) as [E|E].
      * cbn [t_reg t_full t_name]. eexists. split; [exact RG|]. split; [reflexivity|exact D].
      * exists k2. split; [rewrite RO by exact E; exact B|]. split; assumption.
    + assert (KP : forall n p, path s n p -> (match n with NReg h => h <> g | NMod q => forall k, mod_at s q = Some k -> t_reg k <> g end) -> path s' n p).
      { intros n p H. induction H as [h k A B|h k q p A B C IH|q k p A C IH]; intros N.
        - eapply path_top; [rewrite RO by exact N; exact A|exact B].
        - eapply path_reg; [rewrite RO by exact N; exact A|exact B|]. apply IH. intros k2 E2. exact (Fl h k q k2 A B E2).
        - pose proof (N k A) as N'. eapply path_mod; [rewrite (MA q k A); destruct (Nat.eqb_spec (t_reg k) g); [contradiction|reflexivity]|]. apply IH. exact N'. }
      assert (KR : forall n p, root s n p -> (match n with NReg h => h <> g | NMod q => forall k, mod_at s q = Some k -> t_reg k <> g end) -> root s' n p).
      { intros n p H. induction H as [h k A B|h k q p A B C IH|q k p A C IH]; intros N.
        - eapply root_top; [rewrite RO by exact N; exact A|exact B].
        - eapply root_reg; [rewrite RO by exact N; exact A|exact B|]. apply IH. intros k2 E2. exact (Fl h k q k2 A B E2).
        - pose proof (N k A) as N'. eapply root_mod; [rewrite (MA q k A); destruct (Nat.eqb_spec (t_reg k) g); [contradiction|reflexivity]|]. apply IH. exact N'. }
      assert (PG : exists p x, path s' (NReg g) p /\ root s' (NReg g) x).
      { destruct (loc_path s L (NMod m)) as (p & x & A & B); [exact (mod_lt s m km EM)|]. eexists _, _.
        assert (OM : forall k, mod_at s m = Some k -> t_reg k <> g) by (intros k E2; rewrite EM in E2; injection E2 as <-; exact Out).
        split; [eapply path_reg; [exact RG|reflexivity|]; exact (KP _ _ A OM)|eapply root_reg; [exact RG|reflexivity|]; exact (KR _ _ B OM)]. }
      intros n E. destruct n as [h|q].
      * destruct (Nat.eq_dec h g) as [->|N]; [exact PG|]. unfold s' in E. cbn in E. rewrite put_length in E by exact LG.
        destruct (loc_path s L (NReg h)) as (p & x & A & B); [exact E|]. exists p, x. split; [apply KP|apply KR]; assumption.
      * unfold s' in E. cbn in E. rewrite reset_length in E. pose proof E as E'. apply nth_error_Some in E'. destruct (nth_error (tmods s) q) as [k|] eqn:EQ; [|contradiction].
        destruct (Nat.eq_dec (t_reg k) g) as [EE|NE].
        -- destruct PG as (p & x & A & B). assert (HQ : mod_at s' q = Some (Tmod g ((t_full km ++ t_base kg) ++ ModReg_Model.SLASH :: t_name k) (t_name k))) by (rewrite (MA q k EQ); rewrite EE, Nat.eqb_refl; reflexivity).
           eexists _, _. split; [eapply path_mod; [exact HQ|exact A]|eapply root_mod; [exact HQ|exact B]].
        -- destruct (loc_path s L (NMod q)) as (p & x & A & B); [exact E|]. assert (OQ : forall k0, mod_at s q = Some k0 -> t_reg k0 <> g) by (intros k0 E2; unfold mod_at in E2; rewrite EQ in E2; injection E2 as <-; exact NE).
           exists p, x. split; [apply KP|apply KR]; assumption.
Qed.
Lemma run_loc l : forall s, loc s -> good_run s l -> loc (fold_left tstep l s).
Proof. induction l as [|o l IH]; intros s L G; [exact L|]. destruct G as (G1 & G2). cbn [fold_left]. apply IH; [apply step_loc; assumption|exact G2]. Qed.
Lemma empty_loc : loc (Tree [] []).
Proof.
  constructor.
  - intros [|g] k H; discriminate H.
  - intros [|g] k H; discriminate H.
  - intros [g|m] H; cbn in H; lia.
Qed.
Lemma loc_paths s : loc s -> forall n p, path s n p -> match n with NReg g => exists k, reg_at s g = Some k /\ t_base k = p | NMod m => exists k, mod_at s m = Some k /\ t_full k = p end.
Proof.
  intros L n p H. induction H as [h k A B|h k q p A B C IH|q k p A C IH].
  - exists k. split; [exact A|]. pose proof (loc_reg s L h k A) as R. rewrite B in R. apply R.
  - exists k. split; [exact A|]. pose proof (loc_reg s L h k A) as R. rewrite B in R. destruct R as (km & kr & R1 & _ & R2 & _). destruct IH as (k' & I1 & I2). rewrite R1 in I1.
    injection I1 as <-. rewrite R2, I2. reflexivity.
  - exists k. split; [exact A|]. destruct (loc_mod s L q k A) as (kr & R1 & R2 & _). destruct IH as (k' & I1 & I2). rewrite R1 in I1. injection I1 as <-. rewrite R2, I2. reflexivity.
Qed.
Lemma loc_roots s : loc s -> forall n x, root s n x -> top_of s n = Some x.
Proof.
  intros L n x H. induction H as [h k A B|h k q x A B C IH|q k x A C IH]; cbn [top_of].
  - rewrite A. pose proof (loc_reg s L h k A) as R. rewrite B in R. destruct R as (_ & ->). reflexivity.
  - rewrite A. pose proof (loc_reg s L h k A) as R. rewrite B in R. destruct R as (km & kr & R1 & R2 & _ & ->). cbn [top_of] in IH. rewrite R1, R2 in IH. exact IH.
  - rewrite A. cbn [top_of] in IH. exact IH.
Qed.
Theorem names_lemma l n : good_run (Tree [] []) l -> exists_node (trun l) n -> exists p,
  path (trun l) n p /\ match n with NReg g => exists k, reg_at (trun l) g = Some k /\ t_base k = p | NMod m => exists k, mod_at (trun l) m = Some k /\ t_full k = p end.
Proof.
  intros G E. pose proof (run_loc l _ empty_loc G) as L. destruct (loc_path _ L n E) as (p & x & A & _). exists p. split; [exact A|]. exact (loc_paths _ L n p A).
Qed.
Theorem dep_lemma l a b : good_run (Tree [] []) l -> exists_node (trun l) a -> exists_node (trun l) b -> exists x y,
  root (trun l) a x /\ root (trun l) b y /\ (match_dep (trun l) a b = true <-> x = y).
Proof.
  intros G EA EB. pose proof (run_loc l _ empty_loc G) as L. destruct (loc_path _ L a EA) as (_ & x & _ & A). destruct (loc_path _ L b EB) as (_ & y & _ & B).
  exists x, y. split; [exact A|]. split; [exact B|]. unfold match_dep, trun in *. rewrite (loc_roots _ L a x A), (loc_roots _ L b y B). apply Nat.eqb_eq.
Qed.
Lemma put_id {A} (l : list A) i x : nth_error l i = Some x -> put l i x = l.
Proof.
  revert i. induction l as [|a l IH]; intros [|i] H; try discriminate H; unfold put in *; cbn [firstn skipn app].
  - injection H as ->. reflexivity.
  - f_equal. exact (IH i H).
Qed.
Lemma nth_ext_eq {A} (l l' : list A) : (forall i, nth_error l i = nth_error l' i) -> l = l'.
Proof.
  revert l'. induction l as [|a l IH]; intros [|b l'] H; [reflexivity|discriminate (H 0)|discriminate (H 0)|].
  pose proof (H 0) as H0. injection H0 as ->. f_equal. apply IH. intros i. exact (H (S i)).
Qed.
Theorem failed_lemma l m g km kg : good_run (Tree [] []) l -> mod_at (trun l) m = Some km -> reg_at (trun l) g = Some kg -> t_parent kg = None ->
  (forall t, t_full km ++ t_base kg <> t_base kg ++ t) -> add_subreg (trun l) m g false = (trun l, (- 1)%Z).
Proof.
  intros G Hm Hg Hp NB. pose proof (run_loc l _ empty_loc G) as L. fold (trun l) in L. set (s := trun l) in *. clearbody s. unfold add_subreg. rewrite Hm, Hg, Hp.
  pose proof (loc_reg s L g kg Hg) as R. rewrite Hp in R. destruct R as (BG & TG). f_equal.
  assert (E1 : put (regs s) g (Treg (t_id kg) g (t_base kg) None) = regs s).
  { apply put_id. unfold reg_at in Hg. rewrite Hg. f_equal. destruct kg as [i tp bs pr]. cbn in *. subst. reflexivity. }
  rewrite E1. assert (E2 : reset_names g (t_base kg) (reset_names g (t_full km ++ t_base kg) (tmods s)) = tmods s).
  { apply nth_ext_eq. intros i. rewrite reset_nth. destruct (nth_error (tmods s) i) as [k|] eqn:EK.
    - rewrite (attach_mods s m g km kg L Hm Hg i k EK). f_equal. destruct (loc_mod s L i k EK) as (kr & R1 & R2 & NS). destruct (Nat.eqb_spec (t_reg k) g) as [E|E].
      + cbn [t_reg t_full t_name]. rewrite Nat.eqb_refl. cbn [andb]. rewrite E, Hg in R1. injection R1 as <-.
        unfold begins. destruct (list_eq_dec ascii_dec (firstn (length (t_base kg)) ((t_full km ++ t_base kg) ++ B "/" ++ t_name k)) (t_base kg)) as [X|X].
        * exfalso. rewrite firstn_app in X. rewrite app_length in X. replace (length (t_base kg) - (length (t_full km) + length (t_base kg))) with 0 in X by lia.
          cbn [firstn] in X. rewrite app_nil_r in X. apply (NB (skipn (length (t_base kg)) (t_full km ++ t_base kg))). transitivity (firstn (length (t_base kg)) (t_full km ++ t_base kg) ++ skipn (length (t_base kg)) (t_full km ++ t_base kg)); [symmetry; apply firstn_skipn|]. rewrite X. reflexivity.
        * cbn [negb]. unfold set_module_name. rewrite (last_part_is _ _ NS). destruct k as [rg fl nm]. cbn in *. subst. reflexivity.
      + replace (t_reg k =? g) with false by (symmetry; apply Nat.eqb_neq; exact E). reflexivity.
    - assert (X : nth_error (reset_names g (t_full km ++ t_base kg) (tmods s)) i = None) by (apply nth_error_None; rewrite reset_length; apply nth_error_None; exact EK).
      rewrite X. reflexivity. }
  rewrite E2. destruct s; reflexivity.
Qed.
