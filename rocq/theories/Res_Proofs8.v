From Verif Require Import Base Res_Model Res_Spec Res_Proofs Res_Proofs2 Res_Proofs3 Res_Proofs4 Res_Proofs5 Res_Proofs6 Res_Proofs7 Res_Search.
Local Open Scope nat_scope.

Lemma ran_reached h s all : ran h s all -> reached h s.
Proof. induction 1; [constructor|econstructor; eassumption]. Qed.
Lemma call_effect h s o s' tr z : reached h s -> may h s o -> call s o = Ok (s', tr, z) -> effect h s o s' tr z.
Proof. intros R M C. destruct (call_ok h s o (reached_inv _ _ R) M) as (s1 & tr1 & z1 & E & _ & F). assert (X : (s1, tr1, z1) = (s', tr, z)) by congruence. injection X as -> -> ->. exact F. Qed.
Lemma goes_live h s r x : inv h s -> live s r -> goes h s r x -> live s x.
Proof. intros V L G. induction G as [|x c G IH C H N]; [exact L|]. apply (proj1 (g_agree _ (v_good _ _ V))) in C. destruct C as (k & G' & _). eapply get_live, G'. Qed.
Lemma goes_held h s r x : goes h s r x -> x = r \/ held h x = 0.
Proof. intros G. destruct G; auto. Qed.
Lemma option_none {A B} (f : A -> B) o : o = None -> option_map f o = None.
Proof. intros ->. reflexivity. Qed.
(* what a call destroys existed, and nothing comes back *)
Lemma call_dead h s o s' tr z : reached h s -> may h s o -> call s o = Ok (s', tr, z) ->
  length s <= length s' /\ NoDup tr /\ (forall x, In x tr -> live s x /\ ~ live s' x /\ held (o :: h) x = 0) /\ (forall x, x < length s -> ~ live s x -> ~ live s' x)
  /\ (forall x, live s x -> ~ live s' x -> In x tr \/ o = CreateFail x).
Proof.
  intros R M C. pose proof (call_effect _ _ _ _ _ _ R M C) as E. pose proof (reached_inv _ _ R) as V. unfold live.
  assert (St : forall x, rget s x <> None -> ~ rget s x <> None -> False) by tauto.
  destruct o; cbn [effect may] in *.
  - destruct E as (-> & _ & L & _ & l & H & _). split; [lia|]. split; [constructor|]. split; [intros x []|]. split; intros x Hx.
    + intros N. rewrite H by exact Hx. intros X. apply X. apply option_none. destruct (rget s x); [exfalso; apply N; discriminate|reflexivity].
    + intros N. exfalso. apply N. destruct (rget s x) as [k|] eqn:G; [|contradiction]. pose proof (rget_lt _ _ _ G) as Lt. rewrite H, G by exact Lt. discriminate.
  - destruct E as (-> & L & H). split; [lia|]. split; [constructor|]. split; [intros x []|]. split; intros x Hx N; rewrite H in *.
    + intros X. apply X, option_none. destruct (rget s x); [exfalso; apply N; discriminate|reflexivity].
    + exfalso. apply N. destruct (rget s x); [discriminate|contradiction].
  - destruct E as (L & ND & Nr & Go & H). destruct M as ((k & G & _) & Hr & _). split; [lia|]. split; [exact ND|].
    split; [|split].
    + intros x I. assert (Gx : goes h s r x) by (apply Go; auto). split; [apply (goes_live h s r x V); [eapply get_live, G|exact Gx]|]. split; [rewrite H; destruct (in_dec Nat.eq_dec x (r :: tr)) as [_|N]; [tauto|exfalso; apply N; right; exact I]|]. cbn [held]. destruct (goes_held _ _ _ _ Gx) as [->|X]; assumption.
    + intros x Hx N. rewrite H. destruct (in_dec Nat.eq_dec x (r :: tr)); [tauto|]. intros X. apply X, option_none. destruct (rget s x); [exfalso; apply N; discriminate|reflexivity].
    + intros x Hx N. rewrite H in N. destruct (in_dec Nat.eq_dec x (r :: tr)) as [[->|I]|_]; [right; reflexivity|left; exact I|]. exfalso. apply N. destruct (rget s x); [discriminate|contradiction].
  - destruct E as (-> & L & H). split; [lia|]. split; [constructor|]. split; [intros x []|]. split; intros x Hx N; rewrite H in *.
    + intros X. apply X, option_none. destruct (rget s x); [exfalso; apply N; discriminate|reflexivity].
    + exfalso. apply N. destruct (rget s x); [discriminate|contradiction].
  - destruct E as (L & H1 & H2). destruct M as [Lr Mu]. destruct (live_get _ _ Lr) as (k & G).
    assert (Case : (held h r = 0 \/ held h r = 1 /\ (forall p, ~ parent_of s r p) /\ ~ unfinished s r) \/ (2 <= held h r \/ held h r = 1 /\ ((exists p, parent_of s r p) \/ unfinished s r))).
    { destruct (held h r) as [|[|n]]; [left; left; reflexivity| |right; left; lia]. destruct (r_parent k) as [p|] eqn:P; [right; right; split; [reflexivity|]; left; exists p, k; auto|]. destruct (r_init k) eqn:I; [|right; right; split; [reflexivity|]; right; exists k; auto]. left. right. split; [reflexivity|]. split; [apply (no_parent _ _ _ G P)|intros (k' & G' & X); congruence]. }
    split; [lia|]. destruct Case as [Ca|Ca].
    + destruct (H1 Ca) as (ND & Go & _ & _ & H). split; [exact ND|]. split; [|split].
      * intros x I. assert (Gx : goes h s r x) by (apply Go, I). split; [apply (goes_live h s r x V Lr Gx)|]. split; [rewrite H; destruct (in_dec Nat.eq_dec x tr); [tauto|contradiction]|]. cbn [held]. destruct (Nat.eqb_spec r x) as [->|Nx]; [destruct Ca as [->|[-> _]]; reflexivity|]. destruct (goes_held _ _ _ _ Gx) as [->|X]; [contradiction|exact X].
      * intros x Hx N. rewrite H. destruct (in_dec Nat.eq_dec x tr); [tauto|]. intros X. apply X, option_none. destruct (rget s x); [exfalso; apply N; discriminate|reflexivity].
      * intros x Hx N. rewrite H in N. destruct (in_dec Nat.eq_dec x tr) as [I|_]; [left; exact I|]. exfalso. apply N. destruct (rget s x); [discriminate|contradiction].
    + destruct (H2 Ca) as (-> & H). split; [constructor|]. split; [intros x []|]. split; intros x Hx N; rewrite H in *.
      * intros X. apply X, option_none. destruct (rget s x); [exfalso; apply N; discriminate|reflexivity].
      * exfalso. apply N. destruct (rget s x); [discriminate|contradiction].
  - destruct E as (-> & L & H1 & H2). split; [lia|]. split; [constructor|]. split; [intros x []|]. destruct (live_get _ _ M) as (k & G). destruct (r_parent k) as [p|] eqn:P; [destruct (Z.eq_dec (prio_of s r) prio) as [Ep|Ep]|].
    + rewrite (H1 (or_introl Ep)). split; intros x; tauto.
    + destruct (H2 p ltac:(exists k; auto) Ep) as (l & _ & H). split; intros x Hx N; rewrite H in *.
      * intros X. apply X, option_none. destruct (rget s x); [exfalso; apply N; discriminate|reflexivity].
      * exfalso. apply N. destruct (rget s x); [discriminate|contradiction].
    + rewrite (H1 (or_intror (no_parent _ _ _ G P))). split; intros x; tauto.
  - destruct E as (-> & L & H1 & H2). split; [lia|]. split; [constructor|]. split; [intros x []|]. destruct M as (_ & Lc & _). destruct (live_get _ _ Lc) as (k & G). destruct (r_parent k) as [p|] eqn:P.
    + destruct (H1 ltac:(exists p, k; auto)) as [-> _]. split; intros x; tauto.
    + destruct (H2 (no_parent _ _ _ G P)) as (_ & l & _ & H). split; intros x Hx N; rewrite H in *.
      * intros X. apply X, option_none. destruct (rget s x); [exfalso; apply N; discriminate|reflexivity].
      * exfalso. apply N. destruct (rget s x); [discriminate|contradiction].
  - destruct E as (-> & L & E). split; [lia|]. split; [constructor|]. split; [intros x []|]. destruct (live_get _ _ M) as (k & G). destruct (E k G) as [H1 H2]. clear E.
    destruct (r_loop k) eqn:El; [destruct (H1 (or_introl eq_refl)) as [-> _]; split; intros x; tauto|]. destruct (r_parent k) as [p|] eqn:P; [|destruct (H1 (or_intror (or_introl eq_refl))) as [-> _]; split; intros x; tauto]. destruct (N.testbit (r_flags k) BIT_NO_ISOLATION) eqn:Ef; [destruct (H1 (or_intror (or_intror eq_refl))) as [-> _]; split; intros x; tauto|].
    destruct (H2 p eq_refl eq_refl eq_refl) as (_ & Hs & Hi). assert (H : exists f, forall x, rget s' x = option_map (f x) (rget s x)). { destruct (N.testbit flags BIT_SUBTREE); [eexists; apply Hs; reflexivity|]. destruct (Hi eq_refl) as (l & H & _). eexists. apply H. }
    destruct H as (f & H). split; intros x Hx N; rewrite H in *.
    + intros X. apply X, option_none. destruct (rget s x); [exfalso; apply N; discriminate|reflexivity].
    + exfalso. apply N. destruct (rget s x); [discriminate|contradiction].
Qed.
Theorem ran_once h s all : ran h s all -> NoDup all /\ forall x, In x all -> x < length s /\ ~ live s x.
Proof.
  induction 1 as [|h s all o s' tr z R [IH1 IH2] M C]; [split; [constructor|intros x []]|]. destruct (call_dead _ _ _ _ _ _ (ran_reached _ _ _ R) M C) as (L & ND & T & St & _). split.
  - apply nodup_app; [exact IH1|exact ND|]. intros x I J. destruct (IH2 x I) as [_ N]. destruct (T x J) as [Lx _]. contradiction.
  - intros x I. apply in_app_or in I as [I|I].
    + destruct (IH2 x I) as [Lt N]. split; [lia|]. apply St; assumption.
    + destruct (T x I) as (Lx & N & _). split; [|exact N]. apply live_get in Lx as (k & G). apply rget_lt in G. lia.
Qed.

(* Order among children *)
Lemma behind_filter f l a b : behind l a b -> f a = true -> f b = true -> behind (filter f l) a b.
Proof. intros (x & y & z & ->) Ha Hb. rewrite filter_app. cbn [filter]. rewrite Ha, filter_app. cbn [filter]. rewrite Hb. exists (filter f x), (filter f y), (filter f z). reflexivity. Qed.
Lemma children_map s s' (f : nat -> rrec -> rrec) q : (forall x, rget s' x = option_map (f x) (rget s x)) -> children_of s' q = match rget s q with Some k => r_children (f q k) | None => [] end.
Proof. intros H. unfold children_of. rewrite H. destruct (rget s q); reflexivity. Qed.
Lemma cut_behind s s' gone q a b : (forall x, rget s' x = if in_dec Nat.eq_dec x gone then None else option_map (cut gone) (rget s x)) -> behind (children_of s q) a b -> In a (children_of s' q) -> In b (children_of s' q) -> behind (children_of s' q) a b.
Proof.
  intros H B Ia Ib. unfold children_of in *. rewrite H in *. destruct (in_dec Nat.eq_dec q gone); [destruct Ia|]. destruct (rget s q) as [k|]; [|destruct Ia]. cbn [option_map cut r_children] in *. apply filter_In in Ia as [_ Ia]. apply filter_In in Ib as [_ Ib]. apply behind_filter; assumption.
Qed.
Theorem order_kept h s o s' tr z q a b : reached h s -> may h s o -> call s o = Ok (s', tr, z) -> (forall pr, o <> SetPrio a pr) -> (forall pr, o <> SetPrio b pr) ->
  behind (children_of s q) a b -> In a (children_of s' q) -> In b (children_of s' q) -> behind (children_of s' q) a b.
Proof.
  intros R M C Na Nb B Ia Ib. pose proof (call_effect _ _ _ _ _ _ R M C) as E. pose proof (reached_inv _ _ R) as V. pose proof (v_good _ _ V) as Gd.
  assert (Lq : exists kq, rget s q = Some kq) by (destruct (rget s q) as [kq|] eqn:G; [eauto|]; unfold children_of in B; rewrite G in B; destruct B as (x & y & w & X); destruct x; discriminate X). destruct Lq as (kq & Gq).
  rewrite (children_get _ _ _ Gq) in B.
  destruct o; cbn [effect may] in *.
  - destruct E as (_ & _ & L & Hn & l & H & Hi). unfold children_of. rewrite H by (eapply rget_lt, Gq). rewrite Gq. cbn [option_map]. destruct parent as [p|]; [|exact B]. destruct (Nat.eqb_spec q p) as [->|]; [|exact B]. cbn [relink r_children]. destruct Hi as (x & y & E1 & -> & _). apply behind_insert. rewrite <- E1, (children_get _ _ _ Gq). exact B.
  - destruct E as (_ & L & H). unfold children_of. rewrite H, Gq. cbn [option_map]. destruct (q =? r); exact B.
  - destruct E as (L & _ & _ & _ & H). eapply cut_behind; [exact H|rewrite (children_get _ _ _ Gq); exact B|exact Ia|exact Ib].
  - destruct E as (_ & L & H). unfold children_of. rewrite H, Gq. cbn [option_map]. destruct (q =? r); exact B.
  - destruct E as (L & H1 & H2). destruct M as [Lr Mu]. destruct (live_get _ _ Lr) as (k & G).
    assert (Case : (held h r = 0 \/ held h r = 1 /\ (forall p, ~ parent_of s r p) /\ ~ unfinished s r) \/ (2 <= held h r \/ held h r = 1 /\ ((exists p, parent_of s r p) \/ unfinished s r))).
    { destruct (held h r) as [|[|n]]; [left; left; reflexivity| |right; left; lia]. destruct (r_parent k) as [p|] eqn:P; [right; right; split; [reflexivity|]; left; exists p, k; auto|]. destruct (r_init k) eqn:I; [|right; right; split; [reflexivity|]; right; exists k; auto]. left. right. split; [reflexivity|]. split; [apply (no_parent _ _ _ G P)|intros (k' & G' & X); congruence]. }
    destruct Case as [Ca|Ca].
    + destruct (H1 Ca) as (_ & _ & _ & _ & H). eapply cut_behind; [exact H|rewrite (children_get _ _ _ Gq); exact B|exact Ia|exact Ib].
    + destruct (H2 Ca) as (_ & H). unfold children_of. rewrite H, Gq. cbn [option_map]. destruct (q =? r); exact B.
  - destruct E as (_ & L & H1 & H2). destruct (live_get _ _ M) as (k & G).
    assert (Same : s' = s -> behind (children_of s' q) a b) by (intros ->; rewrite (children_get _ _ _ Gq); exact B).
    destruct (r_parent k) as [p|] eqn:P; [|apply Same, H1; right; apply (no_parent _ _ _ G P)]. destruct (Z.eq_dec (prio_of s r) prio) as [Ep|Ep]; [apply Same, H1; left; exact Ep|].
    destruct (H2 p ltac:(exists k; auto) Ep) as (l & (x & y & E1 & -> & _) & H). unfold children_of. rewrite H, Gq. cbn [option_map]. destruct (Nat.eqb_spec q r) as [->|]; [exact B|]. destruct (Nat.eqb_spec q p) as [->|]; [|exact B]. cbn [relink r_children]. apply behind_insert. rewrite <- E1. apply behind_remove; [intros ->; exact (Na prio eq_refl)|intros ->; exact (Nb prio eq_refl)|]. rewrite (children_get _ _ _ Gq). exact B.
  - destruct E as (_ & L & H1 & H2). destruct M as (_ & Lc & _). destruct (live_get _ _ Lc) as (k & G). destruct (r_parent k) as [p|] eqn:P.
    + destruct (H1 ltac:(exists p, k; auto)) as [-> _]. rewrite (children_get _ _ _ Gq). exact B.
    + destruct (H2 (no_parent _ _ _ G P)) as (_ & l & (x & y & E1 & -> & _) & H). unfold children_of. rewrite H, Gq. cbn [option_map]. destruct (Nat.eqb_spec q child) as [->|]; [exact B|]. destruct (Nat.eqb_spec q r) as [->|]; [|exact B]. cbn [relink r_children]. apply behind_insert. rewrite <- E1, (children_get _ _ _ Gq). exact B.
  - destruct E as (_ & L & E). destruct (live_get _ _ M) as (k & G). destruct (E k G) as [H1 H2]. clear E.
    assert (Same : s' = s -> behind (children_of s' q) a b) by (intros ->; rewrite (children_get _ _ _ Gq); exact B).
    destruct (r_loop k) eqn:El; [apply Same, H1; auto|]. destruct (r_parent k) as [p|] eqn:P; [|apply Same, H1; auto]. destruct (N.testbit (r_flags k) BIT_NO_ISOLATION) eqn:Ef; [apply Same, H1; auto|].
    destruct (H2 p eq_refl eq_refl eq_refl) as (_ & Hs & Hi). destruct (N.testbit flags BIT_SUBTREE).
    + pose proof (Hs eq_refl) as H. unfold children_of in *. rewrite H, Gq in *. cbn [option_map] in *. destruct (Nat.eqb_spec q r) as [->|]; [exact B|]. destruct (Nat.eqb_spec q p) as [->|]; [|exact B]. cbn [relink r_children] in *. apply remove_in in Ia as [_ Ia]. apply remove_in in Ib as [_ Ib]. apply behind_remove; assumption.
    + destruct (Hi eq_refl) as (l & H & Hin & _ & _ & B1 & B2 & _). unfold children_of in Ia, Ib |- *. rewrite H, Gq in *. cbn [option_map relink r_children] in *. destruct (Nat.eqb_spec q r) as [->|]; [destruct Ia|]. destruct (Nat.eqb_spec q p) as [->|]; [|exact B]. apply Hin in Ia as [Ia _]. apply Hin in Ib as [Ib _]. apply B1; [exact Ia|exact Ib|]. rewrite (children_get _ _ _ Gq). exact B.
Qed.
Lemma inserted_last s r l l' : inserted s r l l' -> forall c, In c l' -> c <> r -> prio_of s c = prio_of s r -> behind l' c r.
Proof. intros (a & b & -> & -> & Ha & Hb) c I N E. apply in_app_or in I as [I|[->|I]]; [apply behind_mid; [exact I|left; reflexivity]|contradiction|]. specialize (Hb c I). lia. Qed.

(* Looking for a given resource *)
Lemma wide_in s m t : forall x, In x (wide s m t) -> exists u, In u (subs t) /\ In x (flat u).
Proof.
  induction t as [r ts IH] using tree_ind'. intros x. cbn [wide subs]. rewrite Forall_forall in IH. rewrite in_app_iff, filter_In, in_map_iff, in_concat. intros [[(u & <- & I) _]|(l & I & H)]; [exists u; split; [exact I|apply root_flat]|].
  apply in_map_iff in I as (u & <- & I). destruct (IH u I x H) as (v & Iv & Hv). exists u. split; [exact I|]. apply flat_in. right. eauto.
Qed.
Lemma find_none {A} (f : A -> bool) l : (forall x, In x l -> f x = false) -> find f l = None.
Proof. induction l as [|x l IH]; intros H; [reflexivity|]. cbn [find]. rewrite H by (left; reflexivity). apply IH. intros y I. apply H. right. exact I. Qed.
Theorem match_res_never s start r me : good s -> live s start -> me = GENUS \/ me = SIB -> search_match_res s start me r = Ok false.
Proof.
  intros Gd L Me. unfold search_match_res. destruct (height_of _ _ Gd L) as (n & Hn & Ln). assert (Fu : n < fuel_of s) by (unfold fuel_of; lia). destruct (ups_exists s (wanted (MRes r)) _ _ Hn) as (u & Hu). destruct (tops_exists s (wanted (MRes r)) _ _ Hn) as (tp & Ht).
  assert (Only : forall x, mt s None None (MRes r) x = true -> x = r /\ live s x) by (intros x H; apply mt_matches in H as [(k & G & _) ->]; split; [reflexivity|eapply get_live, G]).
  assert (Rd : readable s None None) by apply none_readable. destruct Me as [-> | ->]; cbn [do_search].
  - rewrite (top_up s None None (MRes r) start n Gd Rd Hn _ tp Fu Ht). cbn [obind]. destruct (find (mt s None None (MRes r)) tp) as [x|] eqn:Ef; [|reflexivity]. apply find_some in Ef as [_ Ef]. apply Only in Ef as [-> Lx]. destruct (tree_exists _ Gd r Lx) as (tx & Ex & Tx). pose proof (tree_depth _ _ Gd Tx).
    rewrite <- Ex at 1. rewrite (search_down_lemma s None None (MRes r) Rd WIDE_DFS) by (auto; lia). cbn [obind look]. rewrite find_none; [reflexivity|]. intros x I. destruct (mt s None None (MRes r) x) eqn:Em; [|reflexivity]. apply Only in Em as [-> _]. exfalso. apply wide_in in I as (v & Iv & Hv). pose proof (flat_nodup _ Gd _ Tx) as ND. destruct tx as [rx ts]. cbn [root subs flat] in *. subst rx. inversion ND as [|? ? N1 N2]; subst. apply N1, in_flat_of. eauto.
  - rewrite (imm_up s None None (MRes r) start (fuel_of s) u Gd Rd L ltac:(unfold fuel_of; lia) Hu). cbn [obind]. destruct (find (mt s None None (MRes r)) (firstn 1 u)) as [x|] eqn:Ef; [|reflexivity]. apply find_some in Ef as [_ Ef]. apply Only in Ef as [-> Lx]. destruct (tree_exists _ Gd r Lx) as (tx & Ex & Tx).
    rewrite <- Ex at 1. rewrite (sib_lemma s None None (MRes r) Rd tx (fuel_of s) start Tx ltac:(unfold fuel_of; lia)). cbn [obind]. rewrite find_none; [reflexivity|]. intros x I. destruct (mt s None None (MRes r) x) eqn:Em; [|reflexivity]. apply Only in Em as [-> _]. exfalso. apply filter_In in I as [I _]. apply in_map_iff in I as (v & Ev & Iv). inversion Tx as [rx k ts G E F P]; subst. cbn [subs root] in *. rewrite Forall_forall in P. specialize (P v Iv). rewrite Ev in P. exact (not_self _ (g_rank _ Gd) _ P).
Qed.

(* Iterating *)
Lemma after_mid a c b : ~ In c a -> after (a ++ c :: b) c = hd_error b.
Proof. induction a as [|x a IH]; intros N; cbn [app after]; [rewrite Nat.eqb_refl; reflexivity|]. destruct (Nat.eqb_spec x c) as [->|]; [exfalso; apply N; left; reflexivity|]. apply IH. intros I. apply N. right. exact I. Qed.
Lemma next_lemma s k : forall b a i fuel, rget s (i_res i) = Some k -> r_children k = a ++ b -> NoDup (a ++ b) -> (forall c, In c b -> live s c) -> i_next i = hd_error b -> length b < fuel ->
  match filter (shown s true) b with
  | [] => exists i', iter_next fuel s i = Ok (i', None) /\ i_next i' = None /\ i_res i' = i_res i
  | c :: _ => exists i' a' b', iter_next fuel s i = Ok (i', Some c) /\ i_res i' = i_res i /\ i_next i' = hd_error b' /\ a ++ b = a' ++ b' /\ filter (shown s true) b = c :: filter (shown s true) b' /\ (forall x, In x b' -> In x b)
  end.
Proof.
  induction b as [|c b IH]; intros a i fuel G E ND L N Df; (destruct fuel as [|fuel]; [lia|]).
  - cbn [filter]. exists i. cbn [iter_next]. rewrite N. auto.
  - cbn [iter_next]. rewrite N. cbn [hd_error]. rewrite (the_get _ _ _ G). cbn [obind]. destruct (live_get _ _ (L c (or_introl eq_refl))) as (kc & Gc). rewrite (the_get _ _ _ Gc). cbn [obind].
    assert (Nc : ~ In c a) by (apply nodup_app_inv in ND as (_ & _ & D); intros I; apply (D c I); left; reflexivity).
    rewrite E, (after_mid a c b Nc). cbn [filter]. assert (Sh : shown s true c = negb (N.testbit (r_flags kc) BIT_RESTRICT_DOWN)) by (unfold shown; rewrite Gc; reflexivity). rewrite Sh. destruct (N.testbit (r_flags kc) BIT_RESTRICT_DOWN); cbn [negb].
    + specialize (IH (a ++ [c]) (Iter (i_res i) (i_prev i) (Some c) (hd_error b)) fuel G ltac:(rewrite <- app_assoc; exact E) ltac:(rewrite <- app_assoc; exact ND) (fun x I => L x (or_intror I)) eq_refl ltac:(cbn [length] in Df; lia)).
      destruct (filter (shown s true) b) as [|d l].
      * exact IH.
      * destruct IH as (i' & a' & b' & H1 & H2 & H3 & H4 & H5 & H6). exists i', a', b'. rewrite <- app_assoc in H4. cbn [app] in H4. repeat (split; [assumption|]). intros x I. right. apply H6, I.
    + eexists _, (a ++ [c]), b. split; [reflexivity|]. split; [reflexivity|]. split; [reflexivity|]. split; [rewrite <- app_assoc; reflexivity|]. split; [reflexivity|]. intros x I. right. exact I.
Qed.
Lemma firstn_some {A} n (l : list A) : firstn n (map Some l ++ repeat None n) = match n with O => [] | S n' => match l with [] => None :: firstn n' (map Some [] ++ repeat None n') | x :: l => Some x :: firstn n' (map Some l ++ repeat None n') end end.
Proof.
  destruct n as [|n]; [reflexivity|]. destruct l as [|x l]; cbn [map app repeat firstn]; f_equal.
  assert (G : forall l : list (option A), firstn n (l ++ None :: repeat None n) = firstn n (l ++ repeat None n)). { intros l0. revert l0. assert (R : None :: repeat (@None A) n = repeat None n ++ [None]) by (rewrite <- repeat_cons; reflexivity). intros l0. rewrite R, app_assoc, firstn_app. replace (n - length (l0 ++ repeat None n))%nat with 0 by (rewrite app_length, repeat_length; lia). cbn [firstn]. apply app_nil_r. } apply G.
Qed.
Lemma next_all s k n : forall b a i, rget s (i_res i) = Some k -> r_children k = a ++ b -> NoDup (a ++ b) -> (forall c, In c b -> live s c) -> i_next i = hd_error b -> length b < fuel_of s ->
  take_next n s i = Ok (firstn n (map Some (filter (shown s true) b) ++ repeat None n)).
Proof.
  induction n as [|n IH]; intros b a i G E ND L N Df; [reflexivity|]. cbn [take_next]. pose proof (next_lemma s k b a i (fuel_of s) G E ND L N Df) as X. rewrite firstn_some. destruct (filter (shown s true) b) as [|c l].
  - destruct X as (i' & -> & Ni & Ri). cbn [obind]. rewrite (IH [] (a ++ b) i'); [reflexivity|rewrite Ri; exact G|rewrite app_nil_r; exact E|rewrite app_nil_r; exact ND|intros ? []|exact Ni|unfold fuel_of; cbn; lia].
  - destruct X as (i' & a' & b' & -> & Ri & Ni & Eab & Ef & Sub). cbn [obind]. rewrite (IH b' a' i'); [injection Ef as ->; reflexivity|rewrite Ri; exact G|congruence|congruence|intros x I; apply L, Sub, I|exact Ni|]. assert (length b' <= length (a' ++ b')) by (rewrite app_length; lia). unfold fuel_of in *. assert (Ln : NoDup b' ) by (rewrite Eab in ND; apply nodup_app_inv in ND; tauto). assert (length b' <= length b) by (apply NoDup_incl_length; [exact Ln|exact Sub]). lia.
Qed.
Definition flip (i : iter) : iter := Iter (i_res i) (i_next i) (i_current i) (i_prev i).
Definition mirror (s : st) (r : nat) (k : rrec) : st := rset s r (Some (set_children k (rev (r_children k)))).
Lemma prev_lemma s k : forall b a i fuel, rget s (i_res i) = Some k -> rev (r_children k) = a ++ b -> NoDup (a ++ b) -> (forall c, In c b -> live s c) -> i_prev i = hd_error b -> length b < fuel ->
  match filter (shown s true) b with
  | [] => exists i', iter_previous fuel s i = Ok (i', None) /\ i_prev i' = None /\ i_res i' = i_res i
  | c :: _ => exists i' a' b', iter_previous fuel s i = Ok (i', Some c) /\ i_res i' = i_res i /\ i_prev i' = hd_error b' /\ a ++ b = a' ++ b' /\ filter (shown s true) b = c :: filter (shown s true) b' /\ (forall x, In x b' -> In x b)
  end.
Proof.
  induction b as [|c b IH]; intros a i fuel G E ND L N Df; (destruct fuel as [|fuel]; [lia|]).
  - cbn [filter]. exists i. cbn [iter_previous]. rewrite N. auto.
  - cbn [iter_previous]. rewrite N. cbn [hd_error]. rewrite (the_get _ _ _ G). cbn [obind]. destruct (live_get _ _ (L c (or_introl eq_refl))) as (kc & Gc). rewrite (the_get _ _ _ Gc). cbn [obind].
    assert (Nc : ~ In c a) by (apply nodup_app_inv in ND as (_ & _ & D); intros I; apply (D c I); left; reflexivity).
    rewrite E, (after_mid a c b Nc). cbn [filter]. assert (Sh : shown s true c = negb (N.testbit (r_flags kc) BIT_RESTRICT_DOWN)) by (unfold shown; rewrite Gc; reflexivity). rewrite Sh. destruct (N.testbit (r_flags kc) BIT_RESTRICT_DOWN); cbn [negb].
    + specialize (IH (a ++ [c]) (Iter (i_res i) (hd_error b) (Some c) (i_next i)) fuel G ltac:(rewrite <- app_assoc; exact E) ltac:(rewrite <- app_assoc; exact ND) (fun x I => L x (or_intror I)) eq_refl ltac:(cbn [length] in Df; lia)).
      destruct (filter (shown s true) b) as [|d l].
      * exact IH.
      * destruct IH as (i' & a' & b' & H1 & H2 & H3 & H4 & H5 & H6). exists i', a', b'. rewrite <- app_assoc in H4. cbn [app] in H4. repeat (split; [assumption|]). intros x I. right. apply H6, I.
    + eexists _, (a ++ [c]), b. split; [reflexivity|]. split; [reflexivity|]. split; [reflexivity|]. split; [rewrite <- app_assoc; reflexivity|]. split; [reflexivity|]. intros x I. right. exact I.
Qed.
Lemma prev_all s k n : forall b a i, rget s (i_res i) = Some k -> rev (r_children k) = a ++ b -> NoDup (a ++ b) -> (forall c, In c b -> live s c) -> i_prev i = hd_error b -> length b < fuel_of s ->
  take_previous n s i = Ok (firstn n (map Some (filter (shown s true) b) ++ repeat None n)).
Proof.
  induction n as [|n IH]; intros b a i G E ND L N Df; [reflexivity|]. cbn [take_previous]. pose proof (prev_lemma s k b a i (fuel_of s) G E ND L N Df) as X. rewrite firstn_some. destruct (filter (shown s true) b) as [|c l].
  - destruct X as (i' & -> & Ni & Ri). cbn [obind]. rewrite (IH [] (a ++ b) i'); [reflexivity|rewrite Ri; exact G|rewrite app_nil_r; exact E|rewrite app_nil_r; exact ND|intros ? []|exact Ni|unfold fuel_of; cbn; lia].
  - destruct X as (i' & a' & b' & -> & Ri & Ni & Eab & Ef & Sub). cbn [obind]. rewrite (IH b' a' i'); [injection Ef as ->; reflexivity|rewrite Ri; exact G|congruence|congruence|intros x I; apply L, Sub, I|exact Ni|]. unfold fuel_of in *. assert (Ln : NoDup b' ) by (rewrite Eab in ND; apply nodup_app_inv in ND; tauto). assert (length b' <= length b) by (apply NoDup_incl_length; [exact Ln|exact Sub]). lia.
Qed.
Theorem iterate h s r n : reached h s -> live s r -> exists i, iter_reset s r = Ok i
  /\ take_next n s i = Ok (firstn n (map Some (filter (shown s true) (children_of s r)) ++ repeat None n))
  /\ take_previous n s i = Ok (firstn n (map Some (filter (shown s true) (rev (children_of s r))) ++ repeat None n)).
Proof.
  intros R L. pose proof (reached_inv _ _ R) as V. pose proof (v_good _ _ V) as Gd. destruct (g_agree _ Gd) as (A1 & A2 & A3). destruct (live_get _ _ L) as (k & G). unfold iter_reset. rewrite (the_get _ _ _ G). cbn [obind]. eexists. split; [reflexivity|]. rewrite (children_get _ _ _ G).
  pose proof (A3 r) as ND. rewrite (children_get _ _ _ G) in ND.
  assert (Lc : forall c, In c (r_children k) -> live s c). { intros c I. assert (P : parent_of s c r) by (apply A1; exists k; auto). destruct P as (kc & Gc & _). eapply get_live, Gc. }
  assert (Ln : length (r_children k) < fuel_of s). { unfold fuel_of. apply Nat.lt_succ_r. rewrite <- (seq_length (length s) 0). apply NoDup_incl_length; [exact ND|]. intros c I. apply Lc, live_get in I as (kc & Gc). apply rget_lt in Gc. apply in_seq. lia. }
  split; [apply (next_all s k n _ []); auto|]. apply (prev_all s k n _ []); auto; [apply NoDup_rev, ND|intros c I; apply in_rev in I; auto|rewrite rev_length; exact Ln].
Qed.

(* Forms for the theorems *)
Lemma reached_forest h s : reached h s -> forest s.
Proof. intros R. pose proof (v_good _ _ (reached_inv _ _ R)) as Gd. destruct (g_agree _ Gd) as (A1 & A2 & A3). repeat split; try apply A1; auto. apply acyclic, (g_rank _ Gd). Qed.
Lemma reached_ordered h s q : reached h s -> ordered s (children_of s q).
Proof. intros R. pose proof (v_good _ _ (reached_inv _ _ R)) as Gd. apply (g_sorted _ Gd). Qed.
Lemma reached_count h s r k : reached h s -> rget s r = Some k -> r_refs k = (N.of_nat (held h r) + (match r_parent k with Some _ => 1 | None => 0 end) + (if r_init k then 0 else 1))%N.
Proof. intros R G. apply (v_counts _ _ (reached_inv _ _ R) r k G). Qed.
Lemma call_done h s o : reached h s -> may h s o -> exists s' tr z, call s o = Ok (s', tr, z) /\ effect h s o s' tr z.
Proof. intros R M. destruct (call_ok h s o (reached_inv _ _ R) M) as (s' & tr & z & E & _ & F). eauto. Qed.
Theorem put_last h s o s' tr z q r : reached h s -> may h s o -> call s o = Ok (s', tr, z) ->
  (match o with CreateBegin p _ _ _ _ _ _ => p = Some q /\ r = length s | AddChild p c _ => p = q /\ c = r /\ z = 0%Z | SetPrio x pr => x = r /\ parent_of s r q /\ prio_of s r <> pr | _ => False end) ->
  In r (children_of s' q) /\ forall c, In c (children_of s' q) -> c <> r -> prio_of s' c = prio_of s' r -> behind (children_of s' q) c r.
Proof.
  intros R M C H. pose proof (call_effect _ _ _ _ _ _ R M C) as E.
  assert (Go : forall l l', inserted s' r l l' -> children_of s' q = l' -> In r (children_of s' q) /\ forall c, In c (children_of s' q) -> c <> r -> prio_of s' c = prio_of s' r -> behind (children_of s' q) c r).
  { intros l l' I ->. split; [destruct I as (a & b & _ & -> & _); apply in_or_app; right; left; reflexivity|]. apply (inserted_last _ _ _ _ I). }
  destruct o; cbn [effect may] in *; try contradiction.
  - destruct H as [-> ->]. destruct E as (_ & _ & _ & _ & l & Hx & Hi). cbn in M. apply (Go _ _ Hi). destruct (live_get _ _ M) as (k & G). unfold children_of. rewrite Hx, G by (eapply rget_lt, G). cbn [option_map]. rewrite Nat.eqb_refl. reflexivity.
  - destruct H as (-> & P & N). destruct E as (_ & _ & _ & E). destruct (E q P N) as (l & Hi & Hx). apply (Go _ _ Hi). pose proof (v_good _ _ (reached_inv _ _ R)) as Gd. destruct (g_agree _ Gd) as (A1 & _). pose proof (proj2 (A1 q r) P) as (kq & Gq & _). unfold children_of. rewrite Hx, Gq. cbn [option_map]. rewrite Nat.eqb_refl. destruct (Nat.eqb_spec q r) as [->|]; [destruct (not_self _ (g_rank _ Gd) _ P)|reflexivity].
  - destruct H as (-> & -> & ->). destruct E as (_ & _ & E1 & E2). destruct M as (Lq & Lr & Na). destruct (live_get _ _ Lr) as (k & G). destruct (r_parent k) as [p|] eqn:P; [destruct (E1 ltac:(exists p, k; auto)) as [_ X]; discriminate X|]. destruct (E2 (no_parent _ _ _ G P)) as (_ & l & Hi & Hx). apply (Go _ _ Hi). destruct (live_get _ _ Lq) as (kq & Gq). unfold children_of. rewrite Hx, Gq. cbn [option_map]. rewrite Nat.eqb_refl. destruct (Nat.eqb_spec q r) as [->|]; [destruct Na; constructor|reflexivity].
Qed.
Lemma search_first h s start me type id : reached h s -> live s start -> readable s type id -> exists l f, visits s true me start l /\ search s start me type id = Ok f /\ first_match (matches s type id) l f.
Proof.
  intros R L Rd. destruct (search_ok s start me type id MNone (v_good _ _ (reached_inv _ _ R)) L Rd I) as (l & Hv & E). exists l. eexists. split; [exact Hv|]. split; [exact E|]. apply first_find. intros x. rewrite mt_matches. tauto.
Qed.
Lemma exists_first P l f : first_match P l f -> (match f with Some _ => true | None => false end = true <-> exists x, In x l /\ P x).
Proof. destruct f as [x|]; cbn; [intros (a & b & -> & H & _)|intros H]; split; try discriminate; auto; [intros _; exists x; split; [apply in_or_app; right; left; reflexivity|exact H]|intros (x & I & Hx); destruct (H x I Hx)]. Qed.
Lemma search_match_first h s start me type id : reached h s -> live s start -> readable s type id -> exists l b, visits s false me start l /\ search_match s start me type id = Ok b /\ (b = true <-> exists x, In x l /\ matches s type id x).
Proof.
  intros R L Rd. destruct (search_ok s start me type id MAny (v_good _ _ (reached_inv _ _ R)) L Rd I) as (l & Hv & E). exists l. eexists. split; [exact Hv|]. unfold search_match. rewrite E. cbn [obind]. split; [reflexivity|]. apply exists_first, first_find. intros x. rewrite mt_matches. tauto.
Qed.
Lemma search_res_first h s start me r : reached h s -> live s start -> live s r -> me <> GENUS -> me <> SIB -> exists l b, visits s false me start l /\ search_match_res s start me r = Ok b /\ (b = true <-> In r l).
Proof.
  intros R L Lr N1 N2. destruct (search_ok s start me None None (MRes r) (v_good _ _ (reached_inv _ _ R)) L (none_readable _ _) (conj N1 N2)) as (l & Hv & E). exists l. eexists. split; [exact Hv|]. unfold search_match_res. rewrite E. cbn [obind]. split; [reflexivity|].
  rewrite (exists_first (fun x => matches s None None x /\ x = r)); [|apply first_find; intros x; apply mt_matches]. split; [intros (x & I & _ & ->); exact I|intros I]. exists r. split; [exact I|]. split; [|reflexivity]. destruct (live_get _ _ Lr) as (k & G). exists k. auto.
Qed.
Lemma match_res_never' h s start r me : reached h s -> live s start -> me = GENUS \/ me = SIB -> search_match_res s start me r = Ok false.
Proof. intros R. apply match_res_never, (v_good _ _ (reached_inv _ _ R)). Qed.
