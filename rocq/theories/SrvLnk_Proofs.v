From Verif Require Import Base List_Model List_Proofs SrvLnk_Model SrvLnk_Spec.
Local Open Scope nat_scope.

Record rep (s : store) (w : world) : Prop := Rep {
  r_ring : forall g n l, w_grps w g = Some (n, l) -> ring (nodes s) g l;
  r_apart : forall g n l g' n' l', w_grps w g = Some (n, l) -> w_grps w g' = Some (n', l') -> g <> g' -> forall x, In x (g :: l) -> ~ In x (g' :: l');
  r_links : forall x, option_map attrs_of (links s x) = w_links w x;
  r_group : forall x k g, links s x = Some k -> (k_group k = Some g <-> grouped w x g);
  r_grps : forall g, grps s g = option_map fst (w_grps w g);
  r_member : forall x g, grouped w x g -> w_links w x <> None;
  r_kind : forall g, w_grps w g <> None -> w_links w g = None;
  r_nodes : forall x, nodes s x = None <-> ~ live w x }.

Lemma put_same {A} (f : loc -> A) a x : put f a x a = x. Proof. unfold put. rewrite Nat.eqb_refl. reflexivity. Qed.
Lemma put_other {A} (f : loc -> A) a x y : y <> a -> put f a x y = f y. Proof. unfold put. intros H. destruct (Nat.eqb_spec y a); [contradiction|reflexivity]. Qed.
Lemma not_live w x : ~ live w x <-> w_grps w x = None /\ w_links w x = None.
Proof. unfold live. destruct (w_grps w x), (w_links w x); split; intros H; try (split; congruence); try (elim H; left; congruence); try (elim H; right; congruence); try (destruct H; congruence); intuition congruence. Qed.
Lemma links_some s w x : rep s w -> w_links w x <> None -> exists k, links s x = Some k.
Proof. intros R H. rewrite <- (r_links s w R x) in H. destruct (links s x) as [k|]; [eauto|elim H; reflexivity]. Qed.
Lemma links_none s w x : rep s w -> w_links w x = None -> links s x = None.
Proof. intros R H. rewrite <- (r_links s w R x) in H. destruct (links s x) as [k|]; [discriminate H|reflexivity]. Qed.
Lemma rep_ext s w w' : rep s w -> same_links w w' -> same_grps w w' -> rep s w'.
Proof.
  intros R L G. assert (E : forall x g, grouped w' x g <-> grouped w x g) by (intros x g; unfold grouped; rewrite (G g); tauto). split.
  - intros g n l. rewrite G. apply (r_ring s w R).
  - intros g n l g' n' l'. rewrite !G. apply (r_apart s w R).
  - intros x. rewrite L. apply (r_links s w R).
  - intros x k g. rewrite E. apply (r_group s w R).
  - intros g. rewrite G. apply (r_grps s w R).
  - intros x g. rewrite E, L. apply (r_member s w R).
  - intros g. rewrite G, L. apply (r_kind s w R).
  - intros x. rewrite (r_nodes s w R). unfold live. rewrite G, L. tauto.
Qed.
Lemma grouped_one s w x g g' : rep s w -> grouped w x g -> grouped w x g' -> g = g'.
Proof.
  intros R (n & l & E & I) (n' & l' & E' & I'). destruct (Nat.eq_dec g g') as [|N]; [assumption|]. elim (r_apart s w R g n l g' n' l' E E' N x (or_intror I) (or_intror I')).
Qed.

Lemma create_lemma s w w' a n t no f d : rep s w -> ~ live w a -> same_grps w w' -> w_links w' a = Some (n, t, no, f, d) -> (forall y, y <> a -> w_links w' y = w_links w y) ->
  exists s', link_create s a n t no f d = Ok s' /\ rep s' w' /\ (forall x, x <> a -> nodes s' x = nodes s x).
Proof.
  intros R Nl G La Lo. apply not_live in Nl as [Ng Nk]. unfold link_create. destruct (init_lemma (write (nodes s) a (Some (0, 0))) a) as (m & -> & Rm & Fm); [rewrite write_same; discriminate|].
  cbn [obind]. eexists. split; [reflexivity|]. assert (F : forall x, x <> a -> m x = nodes s x) by (intros x N; rewrite Fm, write_other by exact N; reflexivity). split; [|exact F].
  assert (E : forall x g, grouped w' x g <-> grouped w x g) by (intros x g; unfold grouped; rewrite (G g); tauto).
  assert (Na : forall g, ~ grouped w a g) by (intros g Hg; exact (r_member s w R a g Hg Nk)).
  split; cbn [nodes links grps].
  - intros g n0 l. rewrite G. intros Hg. apply (ring_same (nodes s)); [eapply r_ring; eassumption|]. intros x Hx. apply F. intros ->. destruct Hx as [<-|Hx]; [congruence|]. apply (Na g). exists n0, l. auto.
  - intros g n0 l g' n' l'. rewrite !G. apply (r_apart s w R).
  - intros x. destruct (Nat.eq_dec x a) as [->|N]; [rewrite put_same, La; reflexivity|rewrite put_other, Lo by exact N; apply (r_links s w R)].
  - intros x k g. rewrite E. destruct (Nat.eq_dec x a) as [->|N]; [rewrite put_same|rewrite put_other by exact N; apply (r_group s w R)]. intros [= <-]. cbn [k_group]. split; [discriminate|]. intros H. elim (Na g H).
  - intros g. rewrite G. apply (r_grps s w R).
  - intros x g. rewrite E. intros H. rewrite Lo; [apply (r_member s w R x g H)|]. intros ->. exact (Na g H).
  - intros g. rewrite G. intros H. rewrite Lo; [apply (r_kind s w R g H)|]. intros ->. contradiction.
  - intros x. unfold live. rewrite G. destruct (Nat.eq_dec x a) as [->|N].
    + rewrite La. split; [intros H; elim (ring_some m a [] a Rm (or_introl eq_refl) H)|]. intros H. elim H. right. discriminate.
    + rewrite Lo, F by exact N. apply (r_nodes s w R).
Qed.
Lemma gcreate_lemma s w w' g n : rep s w -> ~ live w g -> same_links w w' -> regroup w w' g (Some (n, [])) -> exists s', grp_create s g n = Ok s' /\ rep s' w'.
Proof.
  intros R Nl L [Gg Go]. apply not_live in Nl as [Ng Nk]. unfold grp_create. destruct (init_lemma (write (nodes s) g (Some (0, 0))) g) as (m & -> & Rm & Fm); [rewrite write_same; discriminate|].
  cbn [obind]. eexists. split; [reflexivity|]. assert (F : forall x, x <> g -> m x = nodes s x) by (intros x N; rewrite Fm, write_other by exact N; reflexivity).
  assert (E : forall x h, grouped w' x h <-> grouped w x h).
  { intros x h. unfold grouped. destruct (Nat.eq_dec h g) as [->|N]; [rewrite Gg, Ng|rewrite (Go h N); tauto]. split; [intros (? & ? & [= <- <-] & [])|intros (? & ? & H & _); discriminate H]. }
  assert (Ngl : forall h, ~ grouped w g h) by (intros h Hg; exact (r_member s w R g h Hg Nk)).
  split; cbn [nodes links grps].
  - intros h n0 l. destruct (Nat.eq_dec h g) as [->|N]; [rewrite Gg; intros [= <- <-]; exact Rm|]. rewrite (Go h N). intros Hg. apply (ring_same (nodes s)); [eapply r_ring; eassumption|].
    intros x Hx. apply F. intros ->. destruct Hx as [<-|Hx]; [congruence|]. apply (Ngl h). exists n0, l. auto.
  - assert (X : forall h n0 l, w_grps w h = Some (n0, l) -> h <> g -> ~ In g (h :: l)) by (intros h n0 l Hh N [->|I]; [congruence|apply (Ngl h); exists n0, l; auto]).
    intros h n0 l h' n' l'. destruct (Nat.eq_dec h g) as [->|N], (Nat.eq_dec h' g) as [->|N']; try rewrite Gg; try rewrite (Go h N); try rewrite (Go h' N'); intros H1 H2 Ne x Hx Hx'; try contradiction.
    + injection H1 as <- <-. destruct Hx as [<-|[]]. exact (X h' n' l' H2 N' Hx').
    + injection H2 as <- <-. destruct Hx' as [<-|[]]. exact (X h n0 l H1 N Hx).
    + exact (r_apart s w R h n0 l h' n' l' H1 H2 Ne x Hx Hx').
  - intros x. rewrite L. apply (r_links s w R).
  - intros x k h. rewrite E. apply (r_group s w R).
  - intros h. destruct (Nat.eq_dec h g) as [->|N]; [rewrite put_same, Gg; reflexivity|rewrite put_other, Go by exact N; apply (r_grps s w R)].
  - intros x h. rewrite E, L. apply (r_member s w R).
  - intros h. rewrite L. destruct (Nat.eq_dec h g) as [->|N]; [intros _; exact Nk|rewrite Go by exact N; apply (r_kind s w R)].
  - intros x. unfold live. rewrite L. destruct (Nat.eq_dec x g) as [->|N].
    + rewrite Gg. split; [intros H; elim (ring_some m g [] g Rm (or_introl eq_refl) H)|]. intros H. elim H. left. discriminate.
    + rewrite Go, F by exact N. apply (r_nodes s w R).
Qed.
Lemma ring_nodes s w g n l x : rep s w -> w_grps w g = Some (n, l) -> In x (g :: l) -> nodes s x <> None.
Proof. intros R H I. exact (ring_some (nodes s) g l x (r_ring s w R g n l H) I). Qed.
Lemma add_grp_lemma s w w' g a n l : rep s w -> w_grps w g = Some (n, l) -> w_links w a <> None -> lonely w a -> same_links w w' -> regroup w w' g (Some (n, l ++ [a])) ->
  exists s', grp_add s g a = Ok s' /\ rep s' w'.
Proof.
  intros R Hg Ha Lo L [Gg Go]. assert (Ng : w_grps w a = None) by (destruct (w_grps w a) eqn:X; [elim Ha; apply (r_kind s w R); congruence|reflexivity]).
  assert (Nag : forall h n0 k, w_grps w h = Some (n0, k) -> ~ In a (h :: k)) by (intros h n0 k Hh [->|I]; [congruence|apply (Lo h); exists n0, k; auto]).
  unfold grp_add. destruct (add_lemma (nodes s) g l a (r_ring s w R g n l Hg)) as (m & -> & Rm & Fm & Dm & _).
  { intros H. apply (r_nodes s w R) in H. apply H. right. exact Ha. } { exact (Nag g n l Hg). }
  cbn [obind]. unfold set_group. cbn [links nodes grps]. destruct (links_some s w a R Ha) as (k & Ek). rewrite Ek. eexists. split; [reflexivity|].
  assert (E : forall x h, grouped w' x h <-> grouped w x h \/ x = a /\ h = g).
  { intros x h. unfold grouped. destruct (Nat.eq_dec h g) as [->|N].
    - rewrite Gg. split.
      + intros (? & ? & [= <- <-] & I). apply in_app_or in I as [I|[<-|[]]]; [left; exists n, l; auto|right; auto].
      + intros [(n0 & l0 & H0 & I)|[-> _]]; [rewrite Hg in H0; injection H0 as <- <-; eexists _, _; split; [reflexivity|]; apply in_or_app; left; exact I|eexists _, _; split; [reflexivity|]; apply in_or_app; right; left; reflexivity].
    - rewrite (Go h N). split; [auto|]. intros [H|[_ H]]; [exact H|contradiction]. }
  split; cbn [nodes links grps].
  - intros h n0 k0. destruct (Nat.eq_dec h g) as [->|N]; [rewrite Gg; intros [= <- <-]; exact Rm|]. rewrite (Go h N). intros Hh. apply (ring_same (nodes s)); [eapply r_ring; eassumption|].
    intros x Hx. apply Fm; intros ->; [exact (Nag h n0 k0 Hh Hx)|exact (r_apart s w R h n0 k0 g n l Hh Hg N g Hx (or_introl eq_refl))|exact (r_apart s w R h n0 k0 g n l Hh Hg N _ Hx (last_in g l))].
  - intros h n0 k0 h' n' k'. destruct (Nat.eq_dec h g) as [->|N], (Nat.eq_dec h' g) as [->|N']; try rewrite Gg; try rewrite (Go h N); try rewrite (Go h' N'); intros H1 H2 Ne x Hx Hx'; try contradiction.
    + injection H1 as <- <-. rewrite app_comm_cons in Hx. apply in_app_or in Hx as [Hx|[<-|[]]]; [exact (r_apart s w R g n l h' n' k' Hg H2 Ne x Hx Hx')|exact (Nag h' n' k' H2 Hx')].
    + injection H2 as <- <-. rewrite app_comm_cons in Hx'. apply in_app_or in Hx' as [Hx'|[<-|[]]]; [exact (r_apart s w R h n0 k0 g n l H1 Hg Ne x Hx Hx')|exact (Nag h n0 k0 H1 Hx)].
    + exact (r_apart s w R h n0 k0 h' n' k' H1 H2 Ne x Hx Hx').
  - intros x. rewrite L. rewrite <- (r_links s w R x). destruct (Nat.eq_dec x a) as [->|N]; [rewrite put_same, Ek; reflexivity|rewrite put_other by exact N; reflexivity].
  - intros x k0 h. rewrite E. destruct (Nat.eq_dec x a) as [->|N].
    + rewrite put_same. intros [= <-]. cbn [k_group]. split; [intros [= <-]; auto|]. intros [H|[_ ->]]; [elim (Lo h H)|reflexivity].
    + rewrite put_other by exact N. intros Hk. rewrite (r_group s w R x k0 h Hk). split; [auto|]. intros [H|[H _]]; [exact H|contradiction].
  - intros h. destruct (Nat.eq_dec h g) as [->|N]; [rewrite Gg, (r_grps s w R g), Hg; reflexivity|rewrite Go by exact N; apply (r_grps s w R)].
  - intros x h. rewrite E, L. intros [H|[-> _]]; [exact (r_member s w R x h H)|exact Ha].
  - intros h. rewrite L. destruct (Nat.eq_dec h g) as [->|N]; [intros _; apply (r_kind s w R); congruence|rewrite Go by exact N; apply (r_kind s w R)].
  - intros x. rewrite Dm, (r_nodes s w R). unfold live. rewrite L. destruct (Nat.eq_dec x g) as [->|N]; [rewrite Gg, Hg; intuition congruence|rewrite Go by exact N; tauto].
Qed.
Lemma unlink_lemma s w w' g a n l1 l2 : rep s w -> w_grps w g = Some (n, l1 ++ a :: l2) -> same_links w w' -> regroup w w' g (Some (n, l1 ++ l2)) ->
  exists s', (let! m := list_del (nodes s) a in set_group (Store m (links s) (grps s)) a None) = Ok s' /\ rep s' w'.
Proof.
  intros R Hg L [Gg Go]. assert (Ga : grouped w a g) by (exists n, (l1 ++ a :: l2); split; [exact Hg|apply in_or_app; right; left; reflexivity]).
  pose proof (r_member s w R a g Ga) as Ha. destruct (links_some s w a R Ha) as (k & Ek).
  destruct (del_lemma (nodes s) g l1 a l2 (r_ring s w R g _ _ Hg)) as (m & -> & Rm & Fm & Dm). cbn [obind]. unfold set_group. cbn [links nodes grps]. rewrite Ek. eexists. split; [reflexivity|].
  assert (Nd : NoDup (g :: l1 ++ a :: l2)) by exact (proj2 (r_ring s w R g _ _ Hg)).
  assert (Na : ~ In a (l1 ++ l2)) by (apply NoDup_cons_iff in Nd as [_ Nd]; apply NoDup_remove_2 in Nd; exact Nd).
  assert (E : forall x h, grouped w' x h <-> grouped w x h /\ x <> a).
  { intros x h. unfold grouped. destruct (Nat.eq_dec h g) as [->|N].
    - rewrite Gg, Hg. split.
      + intros (? & ? & [= <- <-] & I). split; [eexists _, _; split; [reflexivity|]; apply in_app_or in I as [I|I]; apply in_or_app; [left; exact I|right; right; exact I]|intros ->; contradiction].
      + intros [(n0 & l0 & [= <- <-] & I) Nx]. eexists _, _. split; [reflexivity|]. apply in_app_or in I as [I|[->|I]]; [apply in_or_app; left; exact I|contradiction|apply in_or_app; right; exact I].
    - rewrite (Go h N). split; [|tauto]. intros (n0 & l0 & H & I). split; [exists n0, l0; auto|]. intros ->. apply N. apply (grouped_one s w a h g R); [exists n0, l0; auto|exact Ga]. }
  assert (Sub : forall x, In x (g :: l1 ++ l2) -> In x (g :: l1 ++ a :: l2)).
  { intros x [->|I]; [left; reflexivity|]. right. apply in_app_or in I as [I|I]; apply in_or_app; [left; exact I|right; right; exact I]. }
  split; cbn [nodes links grps].
  - intros h n0 k0. destruct (Nat.eq_dec h g) as [->|N]; [rewrite Gg; intros [= <- <-]; exact Rm|]. rewrite (Go h N). intros Hh. apply (ring_same (nodes s)); [eapply r_ring; eassumption|].
    intros x Hx. apply Fm; intros ->; refine (r_apart s w R h n0 k0 g n _ Hh Hg N _ Hx _); apply Sub.
    + destruct (last_in g l1) as [X|X]; [rewrite <- X; left; reflexivity|right; apply in_or_app; left; exact X].
    + destruct (hd_in g l2) as [X|X]; [rewrite <- X; left; reflexivity|right; apply in_or_app; right; exact X].
  - intros h n0 k0 h' n' k'. destruct (Nat.eq_dec h g) as [->|N], (Nat.eq_dec h' g) as [->|N']; try rewrite Gg; try rewrite (Go h N); try rewrite (Go h' N'); intros H1 H2 Ne x Hx Hx'; try contradiction.
    + injection H1 as <- <-. exact (r_apart s w R g n _ h' n' k' Hg H2 Ne x (Sub x Hx) Hx').
    + injection H2 as <- <-. exact (r_apart s w R h n0 k0 g n _ H1 Hg Ne x Hx (Sub x Hx')).
    + exact (r_apart s w R h n0 k0 h' n' k' H1 H2 Ne x Hx Hx').
  - intros x. rewrite L. rewrite <- (r_links s w R x). destruct (Nat.eq_dec x a) as [->|N]; [rewrite put_same, Ek; reflexivity|rewrite put_other by exact N; reflexivity].
  - intros x k0 h. rewrite E. destruct (Nat.eq_dec x a) as [->|N].
    + rewrite put_same. intros [= <-]. cbn [k_group]. split; [discriminate|]. intros [_ H]. contradiction.
    + rewrite put_other by exact N. intros Hk. rewrite (r_group s w R x k0 h Hk). tauto.
  - intros h. destruct (Nat.eq_dec h g) as [->|N]; [rewrite Gg, (r_grps s w R g), Hg; reflexivity|rewrite Go by exact N; apply (r_grps s w R)].
  - intros x h. rewrite E, L. intros [H _]. exact (r_member s w R x h H).
  - intros h. rewrite L. destruct (Nat.eq_dec h g) as [->|N]; [intros _; apply (r_kind s w R); congruence|rewrite Go by exact N; apply (r_kind s w R)].
  - intros x. rewrite Dm, (r_nodes s w R). unfold live. rewrite L. destruct (Nat.eq_dec x g) as [->|N]; [rewrite Gg, Hg; intuition congruence|rewrite Go by exact N; tauto].
Qed.
Lemma free_link_lemma s w w' a : rep s w -> w_links w a <> None -> lonely w a -> same_grps w w' -> w_links w' a = None -> (forall y, y <> a -> w_links w' y = w_links w y) ->
  rep (Store (write (nodes s) a None) (put (links s) a None) (grps s)) w'.
Proof.
  intros R Ha Lo G La Lx. assert (Ng : w_grps w a = None) by (destruct (w_grps w a) eqn:X; [elim Ha; apply (r_kind s w R); congruence|reflexivity]).
  assert (E : forall x g, grouped w' x g <-> grouped w x g) by (intros x g; unfold grouped; rewrite (G g); tauto).
  split; cbn [nodes links grps].
  - intros g n l. rewrite G. intros Hg. apply (ring_same (nodes s)); [eapply r_ring; eassumption|]. intros x Hx. apply write_other. intros ->. destruct Hx as [<-|Hx]; [congruence|]. apply (Lo g). exists n, l. auto.
  - intros g n l g' n' l'. rewrite !G. apply (r_apart s w R).
  - intros x. destruct (Nat.eq_dec x a) as [->|N]; [rewrite put_same, La; reflexivity|rewrite put_other, Lx by exact N; apply (r_links s w R)].
  - intros x k g. rewrite E. destruct (Nat.eq_dec x a) as [->|N]; [rewrite put_same; discriminate|rewrite put_other by exact N; apply (r_group s w R)].
  - intros g. rewrite G. apply (r_grps s w R).
  - intros x g. rewrite E. intros H. rewrite Lx; [apply (r_member s w R x g H)|]. intros ->. exact (Lo g H).
  - intros g. rewrite G. intros H. rewrite Lx; [apply (r_kind s w R g H)|]. intros ->. contradiction.
  - intros x. unfold live. rewrite G. destruct (Nat.eq_dec x a) as [->|N].
    + rewrite write_same, La, Ng. split; [intros _ [H|H]; congruence|reflexivity].
    + rewrite Lx, write_other by exact N. apply (r_nodes s w R).
Qed.
Lemma free_grp_lemma s w w' g n : rep s w -> w_grps w g = Some (n, []) -> same_links w w' -> regroup w w' g None -> exists s', grp_free s g = Ok s' /\ rep s' w'.
Proof.
  intros R Hg L [Gg Go]. unfold grp_free. rewrite (r_grps s w R g), Hg. cbn [option_map fst]. eexists. split; [reflexivity|].
  assert (Ngk : w_links w g = None) by (apply (r_kind s w R); congruence). assert (Ngl : forall h, ~ grouped w g h) by (intros h H; exact (r_member s w R g h H Ngk)).
  assert (E : forall x h, grouped w' x h <-> grouped w x h).
  { intros x h. unfold grouped. destruct (Nat.eq_dec h g) as [->|N]; [rewrite Gg, Hg|rewrite (Go h N); tauto]. split; [intros (? & ? & H & _); discriminate H|intros (? & ? & [= <- <-] & [])]. }
  split; cbn [nodes links grps].
  - intros h n0 l. destruct (Nat.eq_dec h g) as [->|N]; [rewrite Gg; discriminate|]. rewrite (Go h N). intros Hh. apply (ring_same (nodes s)); [eapply r_ring; eassumption|].
    intros x Hx. apply write_other. intros ->. destruct Hx as [<-|Hx]; [congruence|]. apply (Ngl h). exists n0, l. auto.
  - intros h n0 l h' n' l'. destruct (Nat.eq_dec h g) as [->|N], (Nat.eq_dec h' g) as [->|N']; try rewrite Gg; try rewrite (Go h N); try rewrite (Go h' N'); try discriminate. apply (r_apart s w R).
  - intros x. rewrite L. apply (r_links s w R).
  - intros x k h. rewrite E. apply (r_group s w R).
  - intros h. destruct (Nat.eq_dec h g) as [->|N]; [rewrite put_same, Gg; reflexivity|rewrite put_other, Go by exact N; apply (r_grps s w R)].
  - intros x h. rewrite E, L. apply (r_member s w R).
  - intros h. rewrite L. destruct (Nat.eq_dec h g) as [->|N]; [intros _; exact Ngk|rewrite Go by exact N; apply (r_kind s w R)].
  - intros x. unfold live. rewrite L. destruct (Nat.eq_dec x g) as [->|N].
    + rewrite write_same, Gg, Ngk. split; [intros _ [H|H]; congruence|reflexivity].
    + rewrite write_other, Go by exact N. apply (r_nodes s w R).
Qed.
