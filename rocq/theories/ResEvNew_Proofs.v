From Verif Require Import Base ResEv_Model ResEvNew_Model ResEvNew_Spec.
Local Open Scope nat_scope.

Lemma up_near t : grown t -> forall n r l, r <= n -> up t n r = Some l <-> nearest t r l.
Proof.
  intros G. assert (A : forall n r l, up t n r = Some l -> nearest t r l).
  { induction n as [|n IH]; intros r l; cbn [up]; unfold has_loop, parent.
    - destruct (nth_error t r) as [[p b]|] eqn:E; [|discriminate]. destruct b; [intros H; injection H as <-; exact (Near_own t r p E)|discriminate].
    - destruct (nth_error t r) as [[p b]|] eqn:E; [|discriminate]. destruct b; [intros H; injection H as <-; exact (Near_own t r p E)|]. destruct p as [p|]; [|discriminate]. intros H. exact (Near_up t r p l E (IH p l H)). }
  intros n r l L. split; [apply A|]. intros H. revert n L. induction H as [r p E|r p l E H IH]; intros n L.
  - destruct n; cbn [up]; unfold has_loop; rewrite E; reflexivity.
  - pose proof (G r p false E) as Lp. destruct n as [|n]; [lia|]. cbn [up]. unfold has_loop, parent. rewrite E. apply IH. lia.
Qed.
Lemma loop_near t r l : grown t -> with_loop t r = Some l -> nearest t r l.
Proof.
  intros G H. unfold with_loop in H. destruct (le_lt_dec r (length t)) as [L|L]; [apply (proj1 (up_near t G (length t) r l L) H)|].
  exfalso. revert H. replace (up t (length t) r) with (@None nat); [discriminate|]. assert (N : nth_error t r = None) by (apply nth_error_None; lia).
  destruct (length t); cbn [up]; unfold has_loop, parent; rewrite N; reflexivity.
Qed.
Lemma near_loop t r l : grown t -> nearest t r l -> with_loop t r = Some l.
Proof. intros G H. unfold with_loop. apply (up_near t G); [|exact H]. assert (X : r < length t) by (inversion H; subst; apply nth_error_Some; congruence). lia. Qed.
Lemma near_one t r l l' : nearest t r l -> nearest t r l' -> l = l'.
Proof. intros H. revert l'. induction H as [r p E|r p l E H IH]; intros l' H'; inversion H' as [r0 p0 E'|r0 p0 l0 E' H0]; subst; try congruence. apply IH. congruence. Qed.
Lemma near_none t r : grown t -> with_loop t r = None -> forall l, ~ nearest t r l.
Proof. intros G H l N. rewrite (near_loop t r l G N) in H. discriminate H. Qed.

Record inv (t : tree) (s : st) : Prop := {
  i_match : matched t s;
  i_next : forall l sd, In (l, sd) (s_sd s) -> sd < s_next s;
  i_src : forall r x, In (r, x) (s_srcs s) -> exists l, nearest t r l;
  i_name : forall r x, In (r, x) (s_srcs s) -> x_name x <> None;
  i_sig : forall r x l, In (r, x) (s_srcs s) -> x_kind x = KSignal -> nearest t r l -> In l (s_sigfd s);
  i_one : forall r x r' x' l, In (r, x) (s_srcs s) -> In (r', x') (s_srcs s) -> x_kind x = KSignal -> x_kind x' = KSignal -> nearest t r l -> nearest t r' l -> x = x' }.
Lemma src_next t s : inv t s -> forall r x, In (r, x) (s_srcs s) -> x_sd x < s_next s.
Proof. intros I r x H. destruct (i_src t s I r x H) as (l & N). apply (i_next t s I l). apply (proj1 (i_match t s I)). exists r, x. auto. Qed.
Lemma unref_add s l : (forall l sd, In (l, sd) (s_sd s) -> sd < s_next s) -> s_sd (unref (add_sd s l) (s_next s)) = s_sd s.
Proof.
  intros F. cbn [unref add_sd s_sd s_next filter snd]. rewrite Nat.eqb_refl. cbn [negb]. induction (s_sd s) as [|[a b] q IH]; [reflexivity|]. cbn [filter snd].
  replace (b =? s_next s) with false by (symmetry; apply Nat.eqb_neq; specialize (F a b (or_introl eq_refl)); lia). cbn [negb]. f_equal. apply IH. intros l' sd H. apply (F l'). right. exact H.
Qed.
(* what changes only signals or the number keeps the invariant *)
Lemma inv_same t s s' : inv t s -> s_srcs s' = s_srcs s -> s_sd s' = s_sd s -> s_next s <= s_next s' -> incl (s_sigfd s) (s_sigfd s') -> inv t s'.
Proof.
  intros [A1 A2 A3 A4 A5 A6] E1 E2 L C. split; unfold matched in *; rewrite ?E1, ?E2 in *; try assumption.
  - intros l sd H. specialize (A2 l sd H). lia.
  - intros r x l H K N. apply C, (A5 r x l H K N).
Qed.
Lemma create_in_lemma t s c l r k prio name max time : inv t s -> nearest t r l -> (k = KSignal -> In l (s_sigfd s) /\ forall r' x', In (r', x') (s_srcs s) -> x_kind x' = KSignal -> ~ nearest t r' l) ->
  exists s' e, create_in s c l r k prio (Some name) max time = (s', e) /\ inv t s' /\ s_sigfd s' = s_sigfd s /\ s_mask s' = s_mask s
    /\ (e = 0%Z /\ one_more t s s' r k name max time \/ (e < 0)%Z /\ s_srcs s' = s_srcs s /\ s_sd s' = s_sd s).
Proof.
  intros I N K. pose proof (i_next t s I) as F. unfold create_in.
  assert (B : inv t (unref (add_sd s l) (s_next s)) /\ s_sd (unref (add_sd s l) (s_next s)) = s_sd s).
  { split; [|exact (unref_add s l F)]. apply (inv_same t s); [exact I|reflexivity|exact (unref_add s l F)|cbn; lia|apply incl_refl]. }
  destruct B as (B1 & B2).
  destruct (Z.ltb_spec (c_add c) 0) as [La|La]; [exists s, (c_add c); split; [reflexivity|]; split; [exact I|]; repeat split; right; auto|].
  destruct (negb (prio =? 0)%Z && (c_prio c <? 0)%Z) eqn:Ep.
  { apply andb_true_iff in Ep as [_ Ep]. exists (unref (add_sd s l) (s_next s)), (c_prio c). split; [reflexivity|]. split; [exact B1|]. split; [reflexivity|]. split; [reflexivity|]. right. split; [lia|]. split; [reflexivity|exact B2]. }
  unfold create_source. destruct (c_mem c).
  2: { exists (unref (add_sd s l) (s_next s)), (-12)%Z. split; [reflexivity|]. split; [exact B1|]. split; [reflexivity|]. split; [reflexivity|]. right. split; [lia|]. split; [reflexivity|exact B2]. }
  set (x := Src (s_next s) k (Some (if c_desc c then name else B "unnamed")) (create max) time).
  exists (St (s_srcs s ++ [(r, x)]) ((l, s_next s) :: s_sd s) (S (s_next s)) (s_sigfd s) (s_mask s)), 0%Z. split; [reflexivity|]. split; [|split; [reflexivity|]; split; [reflexivity|]; left; split; [reflexivity|]].
  2: { exists l, (s_next s), (if c_desc c then name else B "unnamed"). split; [exact N|]. split; [destruct (c_desc c); auto|]. split; reflexivity. }
  pose proof (src_next t s I) as Fx. destruct I as [(A1 & D1 & D2) A2 A3 A4 A5 A6]. split; cbn [s_srcs s_sd s_next s_sigfd s_mask].
  - split; [|split]; cbn [s_srcs s_sd].
    + intros l' sd. split.
      * intros [E|H]; [injection E as <- <-; exists r, x; split; [apply in_or_app; right; left; reflexivity|]; split; [reflexivity|exact N]|].
        apply A1 in H as (r' & x' & H1 & H2 & H3). exists r', x'. split; [apply in_or_app; left; exact H1|auto].
      * intros (r' & x' & H1 & H2 & H3). apply in_app_or in H1 as [H1|[E|[]]].
        -- right. apply A1. exists r', x'. auto.
        -- injection E as <- <-. left. rewrite (near_one t r l l' N H3). f_equal. exact H2.
    + cbn [map snd]. constructor; [|exact D1]. intros H. apply in_map_iff in H as ([a b] & E & H). cbn [snd] in E. subst b. specialize (A2 a _ H). lia.
    + rewrite map_app. cbn [map snd]. apply NoDup_Add with (a := x_sd x) (l := map (fun y => x_sd (snd y)) (s_srcs s)).
      * change (map (fun y => x_sd (snd y)) (s_srcs s)) with (map (fun y => x_sd (snd y)) (s_srcs s)) at 1. rewrite <- (app_nil_r (map (fun y => x_sd (snd y)) (s_srcs s))) at 1. apply Add_app.
      * split; [exact D2|]. intros H. apply in_map_iff in H as ([a b] & E & H). cbn [snd] in E. specialize (Fx a b H). rewrite E in Fx. cbn in Fx. lia.
  - intros l' sd [E|H]; [injection E as <- <-; lia|specialize (A2 l' sd H); lia].
  - intros r' x' H. apply in_app_or in H as [H|[E|[]]]; [exact (A3 r' x' H)|injection E as <- <-; exists l; exact N].
  - intros r' x' H. apply in_app_or in H as [H|[E|[]]]; [exact (A4 r' x' H)|injection E as <- <-; discriminate].
  - intros r' x' l' H Kx Nx. apply in_app_or in H as [H|[E|[]]]; [exact (A5 r' x' l' H Kx Nx)|]. injection E as <- <-. rewrite <- (near_one t r l l' N Nx). apply K. exact Kx.
  - intros r1 x1 r2 x2 l' H1 H2 K1 K2 N1 N2. apply in_app_or in H1 as [H1|[E1|[]]]; apply in_app_or in H2 as [H2|[E2|[]]].
    + exact (A6 r1 x1 r2 x2 l' H1 H2 K1 K2 N1 N2).
    + injection E2 as <- <-. exfalso. rewrite <- (near_one t r l l' N N2) in N1. exact (proj2 (K K2) r1 x1 H1 K1 N1).
    + injection E1 as <- <-. exfalso. rewrite <- (near_one t r l l' N N1) in N2. exact (proj2 (K K1) r2 x2 H2 K2 N2).
    + congruence.
Qed.
Lemma plain_lemma t s c r k prio name : grown t -> inv t s -> k <> KSignal -> exists s' e, create_plain t s c r k prio (Some name) = (s', e) /\ inv t s'
  /\ (e = 0%Z /\ one_more t s s' r k name (max_of k) 0 /\ s_mask s' = s_mask s \/ (e < 0)%Z /\ untouched s s').
Proof.
  intros G I K. unfold create_plain. destruct (with_loop t r) as [l|] eqn:E.
  - destruct (create_in_lemma t s c l r k prio name (max_of k) 0 I (loop_near t r l G E) ltac:(intros X; contradiction)) as (s' & e & H & Iv & _ & M & [(-> & O)|(L & E1 & E2)]); exists s'; eexists; (split; [exact H|]); (split; [exact Iv|]); [left; auto|right].
    split; [exact L|]. repeat split; assumption.
  - exists s, (-123)%Z. split; [reflexivity|]. split; [exact I|]. right. split; [lia|]. repeat split.
Qed.
Lemma set_mask_inv t s m : inv t s -> inv t (set_mask s m). Proof. intros I. apply (inv_same t s _ I); try reflexivity; apply incl_refl. Qed.
Lemma in_list_in l ls : in_list l ls = true <-> In l ls.
Proof. unfold in_list. rewrite existsb_exists. split; [intros (x & H & E); apply Nat.eqb_eq in E; subst; exact H|intros H; exists l; split; [exact H|apply Nat.eqb_refl]]. Qed.
Lemma signal_lemma t s c r mask prio name : grown t -> inv t s -> exists s' e, create_signal t s c r mask prio (Some name) = (s', e) /\ inv t s'
  /\ (e = 0%Z /\ one_more t s s' r KSignal name UNLIMITED 0 /\ s_mask s' = mask ++ s_mask s \/ (e < 0)%Z /\ untouched s s').
Proof.
  intros G I. unfold create_signal. destruct (with_loop t r) as [l|] eqn:E.
  2: { exists s, (-123)%Z. split; [reflexivity|]. split; [exact I|]. right. split; [lia|]. repeat split. }
  pose proof (loop_near t r l G E) as N. destruct (Z.ltb_spec (c_mask c) 0) as [Lm|Lm].
  { exists s, (c_mask c). split; [reflexivity|]. split; [exact I|]. right. split; [exact Lm|]. repeat split. }
  cbn [s_sigfd set_mask]. destruct (in_list l (s_sigfd s)) eqn:Ei.
  { exists (set_mask (set_mask s (mask ++ s_mask s)) (s_mask s)), (-98)%Z. split; [reflexivity|]. split; [apply set_mask_inv, set_mask_inv, I|]. right. split; [lia|]. repeat split. }
  destruct (Z.ltb_spec (c_sigfd c) 0) as [Ls|Ls].
  { exists (set_mask (set_mask s (mask ++ s_mask s)) (s_mask s)), (c_sigfd c). split; [reflexivity|]. split; [apply set_mask_inv, set_mask_inv, I|]. right. split; [exact Ls|]. repeat split. }
  cbn [s_srcs s_sd s_next s_sigfd s_mask set_mask]. set (s0 := St (s_srcs s) (s_sd s) (s_next s) (l :: s_sigfd s) (mask ++ s_mask s)).
  assert (I0 : inv t s0) by (apply (inv_same t s _ I); try reflexivity; intros a Ha; right; exact Ha).
  assert (K : KSignal = KSignal -> In l (s_sigfd s0) /\ forall r' x', In (r', x') (s_srcs s0) -> x_kind x' = KSignal -> ~ nearest t r' l).
  { intros _. split; [left; reflexivity|]. intros r' x' H Kx Nx. pose proof (i_sig t s I r' x' l H Kx Nx) as X. apply in_list_in in X. congruence. }
  destruct (create_in_lemma t s0 c l r KSignal prio name UNLIMITED 0 I0 N K) as (s' & e & -> & Iv & _ & M & [(-> & O)|(L & E1 & E2)]).
  - exists s', 0%Z. split; [reflexivity|]. split; [exact Iv|]. left. split; [reflexivity|]. split; [exact O|exact M].
  - exists (set_mask s' (s_mask s)), e. destruct (Z.ltb_spec e 0) as [_|X]; [|lia]. split; [reflexivity|]. split; [apply set_mask_inv, Iv|]. right. split; [exact L|]. split; [exact E1|]. split; [exact E2|reflexivity].
Qed.
Lemma time_lemma t s c r d usec prio name : grown t -> inv t s -> exists s' e, create_time t s c r d usec prio (Some name) = (s', e) /\ inv t s'
  /\ (e = 0%Z /\ one_more t s s' r KTime name 1 (deadline (c_time c) d usec) /\ s_mask s' = s_mask s
      \/ (e < 0)%Z /\ untouched s s' \/ e = 1%Z /\ d = REL /\ (c_now c < 0)%Z /\ s' = s).
Proof.
  intros G I. unfold create_time. destruct (with_loop t r) as [l|] eqn:E.
  2: { exists s, (-123)%Z. split; [reflexivity|]. split; [exact I|]. right. left. split; [lia|]. repeat split. }
  pose proof (loop_near t r l G E) as N. assert (A : forall at_, exists s' e, create_in s c l r KTime prio (Some name) 1 at_ = (s', e) /\ inv t s' /\ (e = 0%Z /\ one_more t s s' r KTime name 1 at_ /\ s_mask s' = s_mask s \/ (e < 0)%Z /\ untouched s s')).
  { intros at_. destruct (create_in_lemma t s c l r KTime prio name 1 at_ I N ltac:(discriminate)) as (s' & e & H & Iv & _ & M & [(-> & O)|(L & E1 & E2)]); exists s'; eexists; (split; [exact H|]); (split; [exact Iv|]); [left; auto|right; split; [exact L|repeat split; assumption]]. }
  destruct d; cbn [deadline].
  - destruct (A usec) as (s' & e & H & Iv & [X|X]); exists s', e; split; auto.
  - destruct (Z.ltb_spec (c_now c) 0) as [Ln|Ln]; [exists s, 1%Z; split; [reflexivity|]; split; [exact I|]; right; right; auto|].
    destruct (N.leb_spec (U64MAX - c_time c) usec); [exists s, (-75)%Z; split; [reflexivity|]; split; [exact I|]; right; left; split; [lia|repeat split]|].
    destruct (A (c_time c + usec)%N) as (s' & e & H' & Iv & [X|X]); exists s', e; split; auto.
Qed.
Lemma filter_in_nodup (P : nat * src -> bool) q : NoDup (map (fun y => x_sd (snd y)) q) -> NoDup (map (fun y => x_sd (snd y)) (filter P q)).
Proof.
  induction q as [|a q IH]; intros H; [constructor|]. cbn [map] in H. inversion H as [|? ? H1 H2]; subst. cbn [filter]. destruct (P a); [|exact (IH H2)]. cbn [map]. constructor; [|exact (IH H2)].
  intros X. apply H1. apply in_map_iff in X as (b & E & X). apply filter_In in X as [X _]. apply in_map_iff. exists b. auto.
Qed.
Lemma filter_in_nodup2 (P : nat * nat -> bool) q : NoDup (map snd q) -> NoDup (map snd (filter P q)).
Proof.
  induction q as [|a q IH]; intros H; [constructor|]. cbn [map] in H. inversion H as [|? ? H1 H2]; subst. cbn [filter]. destruct (P a); [|exact (IH H2)]. cbn [map]. constructor; [|exact (IH H2)].
  intros X. apply H1. apply in_map_iff in X as (b & E & X). apply filter_In in X as [X _]. apply in_map_iff. exists b. auto.
Qed.
Lemma destroy_lemma t s r x : inv t s -> In (r, x) (s_srcs s) -> exists s', destroy s (x_sd x) = Ok s' /\ inv t s' /\ s_sigfd s' = s_sigfd s
  /\ (forall y, In y (s_srcs s') <-> In y (s_srcs s) /\ x_sd (snd y) <> x_sd x) /\ (forall y, In y (s_sd s') <-> In y (s_sd s) /\ snd y <> x_sd x).
Proof.
  intros I H. unfold destroy. destruct (find _ _) as [[r0 x0]|] eqn:E.
  2: { exfalso. pose proof (find_none _ _ E (r, x) H) as X. cbn [snd] in X. rewrite Nat.eqb_refl in X. discriminate X. }
  apply find_some in E as [H0 E]. cbn [snd] in E. pose proof (i_name t s I r0 x0 H0) as Nm. destruct (x_name x0) as [n|]; [|elim Nm; reflexivity].
  eexists. split; [reflexivity|]. cbn [s_srcs s_sd s_next s_sigfd s_mask unref].
  assert (F1 : forall y, In y (filter (fun y => negb (x_sd (snd y) =? x_sd x)) (s_srcs s)) <-> In y (s_srcs s) /\ x_sd (snd y) <> x_sd x).
  { intros y. rewrite filter_In. destruct (Nat.eqb_spec (x_sd (snd y)) (x_sd x)); intuition discriminate. }
  assert (F2 : forall y, In y (filter (fun y => negb (snd y =? x_sd x)) (s_sd s)) <-> In y (s_sd s) /\ snd y <> x_sd x).
  { intros y. rewrite filter_In. destruct (Nat.eqb_spec (snd y) (x_sd x)); intuition discriminate. }
  split; [|split; [reflexivity|split; [exact F1|exact F2]]].
  destruct I as [(A1 & D1 & D2) A2 A3 A4 A5 A6]. split; cbn [s_srcs s_sd s_next s_sigfd s_mask].
  - split; [|split]; cbn [s_srcs s_sd].
    + intros l sd. rewrite F2. cbn [snd]. rewrite A1. split.
      * intros ((r' & x' & H1 & H2 & H3) & Ne). exists r', x'. split; [apply F1; cbn [snd]; split; [exact H1|congruence]|auto].
      * intros (r' & x' & H1 & H2 & H3). apply F1 in H1 as [H1 Ne]. cbn [snd] in Ne. split; [exists r', x'; auto|congruence].
    + apply filter_in_nodup2, D1.
    + apply filter_in_nodup, D2.
  - intros l sd X. apply F2 in X as [X _]. exact (A2 l sd X).
  - intros r' x' X. apply F1 in X as [X _]. exact (A3 r' x' X).
  - intros r' x' X. apply F1 in X as [X _]. exact (A4 r' x' X).
  - intros r' x' l X. apply F1 in X as [X _]. exact (A5 r' x' l X).
  - intros r1 x1 r2 x2 l X1 X2. apply F1 in X1 as [X1 _]. apply F1 in X2 as [X2 _]. exact (A6 r1 x1 r2 x2 l X1 X2).
Qed.
Lemma inv_nothing t sigs : inv t (nothing sigs).
Proof. split; cbn; try tauto. split; [|split; constructor]. intros l sd. cbn. split; [intros []|intros (r & x & [] & _)]. Qed.
Lemma step_inv t s a : grown t -> inv t s -> fits a -> exists s', step t s a = Ok s' /\ inv t s'.
Proof.
  intros G I C. destruct a as [c r k prio name|c r mask prio name|c r d usec prio name|n]; cbn [step].
  - destruct (plain_lemma t s c r k prio name G I (proj1 C)) as (s' & e & -> & Iv & _). exists s'. auto.
  - destruct (signal_lemma t s c r mask prio name G I) as (s' & e & -> & Iv & _). exists s'. auto.
  - destruct (time_lemma t s c r d usec prio name G I) as (s' & e & -> & Iv & _). exists s'. auto.
  - destruct (nth_error (s_srcs s) n) as [[r x]|] eqn:E; [|exists s; auto]. destruct (destroy_lemma t s r x I (nth_error_In _ _ E)) as (s' & H & Iv & _). exists s'. auto.
Qed.
Lemma steps_inv t : grown t -> forall acts s, inv t s -> Forall fits acts -> exists s', steps t s acts = Ok s' /\ inv t s'.
Proof.
  intros G. induction acts as [|a acts IH]; intros s I F; [exists s; auto|]. cbn [steps]. destruct (step_inv t s a G I (Forall_inv F)) as (s' & -> & Iv). cbn [obind]. exact (IH s' Iv (Forall_inv_tail F)).
Qed.
Lemma reached_inv t s : reached t s -> grown t /\ inv t s.
Proof. intros (G & sigs & acts & F & H). split; [exact G|]. destruct (steps_inv t G acts (nothing sigs) (inv_nothing t sigs) F) as (s' & E & I). congruence. Qed.
Lemma history_lemma t sigs acts : grown t -> Forall fits acts -> exists s, steps t (nothing sigs) acts = Ok s /\ matched t s.
Proof. intros G F. destruct (steps_inv t G acts (nothing sigs) (inv_nothing t sigs) F) as (s & E & I). exists s. split; [exact E|apply I]. Qed.
Lemma one_signal t s r x r' x' l : reached t s -> In (r, x) (s_srcs s) -> In (r', x') (s_srcs s) -> x_kind x = KSignal -> x_kind x' = KSignal -> nearest t r l -> nearest t r' l -> x = x'.
Proof. intros R. destruct (reached_inv t s R) as (_ & I). exact (i_one t s I r x r' x' l). Qed.
Lemma plain_theorem t s c r k prio name : reached t s -> plain_kind k -> exists s' e, create_plain t s c r k prio (Some name) = (s', e)
  /\ (e = 0%Z /\ one_more t s s' r k name (times k) 0 /\ s_mask s' = s_mask s \/ (e < 0)%Z /\ untouched s s').
Proof. intros R (K & _). destruct (reached_inv t s R) as (G & I). destruct (plain_lemma t s c r k prio name G I K) as (s' & e & H & _ & X). exists s', e. split; [exact H|]. destruct k; exact X. Qed.
Lemma signal_theorem t s c r mask prio name : reached t s -> exists s' e, create_signal t s c r mask prio (Some name) = (s', e)
  /\ (e = 0%Z /\ one_more t s s' r KSignal name (times KSignal) 0 /\ s_mask s' = mask ++ s_mask s \/ (e < 0)%Z /\ untouched s s').
Proof. intros R. destruct (reached_inv t s R) as (G & I). destruct (signal_lemma t s c r mask prio name G I) as (s' & e & H & _ & X). exists s', e. split; [exact H|exact X]. Qed.
Lemma time_theorem t s c r d usec prio name : reached t s -> (0 <= c_now c)%Z \/ d = ABS -> exists s' e, create_time t s c r d usec prio (Some name) = (s', e)
  /\ (e = 0%Z /\ one_more t s s' r KTime name (times KTime) (deadline (c_time c) d usec) /\ s_mask s' = s_mask s \/ (e < 0)%Z /\ untouched s s').
Proof.
  intros R Hn. destruct (reached_inv t s R) as (G & I). destruct (time_lemma t s c r d usec prio name G I) as (s' & e & H & _ & [X|[X|(_ & -> & L & _)]]); [exists s', e; auto..|]. destruct Hn as [Hn|Hn]; [lia|discriminate Hn].
Qed.
Lemma lucky_in s c l r k prio name max time : lucky c -> exists s', create_in s c l r k prio name max time = (s', 0%Z).
Proof.
  intros ((L1 & L2 & L3 & L4 & L5) & M). unfold create_in, create_source. rewrite M. destruct (Z.ltb_spec (c_add c) 0) as [X|_]; [lia|]. destruct (Z.ltb_spec (c_prio c) 0) as [X|_]; [lia|]. rewrite andb_false_r. eexists. reflexivity.
Qed.
Lemma loop_iff t r : grown t -> (exists l, nearest t r l) \/ with_loop t r = None.
Proof. intros G. destruct (with_loop t r) as [l|] eqn:E; [left; exists l; exact (loop_near t r l G E)|right; reflexivity]. Qed.
Lemma lucky_plain t s c r k prio name l : grown t -> lucky c -> nearest t r l -> snd (create_plain t s c r k prio name) = 0%Z.
Proof. intros G L N. unfold create_plain. rewrite (near_loop t r l G N). destruct (lucky_in s c l r k prio name (max_of k) 0 L) as (s' & ->). reflexivity. Qed.
Lemma lucky_time t s c r d usec prio name l : grown t -> lucky c -> nearest t r l -> (d = REL -> c_time c + usec < 18446744073709551615)%N -> snd (create_time t s c r d usec prio name) = 0%Z.
Proof.
  intros G L N F. unfold create_time. rewrite (near_loop t r l G N). destruct d; [destruct (lucky_in s c l r KTime prio name 1 usec L) as (s' & ->); reflexivity|]. specialize (F eq_refl).
  destruct (Z.ltb_spec (c_now c) 0) as [X|_]; [destruct L as ((_ & _ & L3 & _) & _); lia|]. destruct (N.leb_spec (U64MAX - c_time c) usec) as [X|_]; [unfold U64MAX in X; lia|].
  destruct (lucky_in s c l r KTime prio name 1 (c_time c + usec)%N L) as (s' & ->). reflexivity.
Qed.
Lemma late_time t s c r usec prio name l : grown t -> nearest t r l -> (0 <= c_now c)%Z -> (18446744073709551615 <= c_time c + usec)%N -> create_time t s c r REL usec prio name = (s, (-75)%Z).
Proof. intros G N L F. unfold create_time. rewrite (near_loop t r l G N). destruct (Z.ltb_spec (c_now c) 0) as [X|_]; [lia|]. destruct (N.leb_spec (U64MAX - c_time c) usec) as [_|X]; [reflexivity|unfold U64MAX in X; lia]. Qed.
Lemma no_loop t s c r : grown t -> (forall l, ~ nearest t r l) -> (forall k prio name, create_plain t s c r k prio name = (s, (-123)%Z)) /\ (forall mask prio name, create_signal t s c r mask prio name = (s, (-123)%Z))
  /\ (forall d usec prio name, create_time t s c r d usec prio name = (s, (-123)%Z)).
Proof. intros G H. destruct (loop_iff t r G) as [(l & N)|E]; [elim (H l N)|]. unfold create_plain, create_signal, create_time. rewrite E. auto. Qed.
Lemma clock_lemma t s c r usec prio name l : grown t -> nearest t r l -> (c_now c < 0)%Z -> create_time t s c r REL usec prio name = (s, 1%Z).
Proof. intros G N L. unfold create_time. rewrite (near_loop t r l G N). destruct (Z.ltb_spec (c_now c) 0) as [_|X]; [reflexivity|lia]. Qed.
(* a loop that once had a signalfd refuses signals *)
Lemma refused t s c r mask prio name l : grown t -> nearest t r l -> In l (s_sigfd s) -> (0 <= c_mask c)%Z -> snd (create_signal t s c r mask prio name) = (-98)%Z.
Proof.
  intros G N H L. unfold create_signal. rewrite (near_loop t r l G N). destruct (Z.ltb_spec (c_mask c) 0) as [X|_]; [lia|]. cbn [set_mask s_sigfd]. rewrite (proj2 (in_list_in _ _) H). reflexivity.
Qed.
Lemma create_in_sigfd s c l r k prio name max time : s_sigfd (fst (create_in s c l r k prio name max time)) = s_sigfd s.
Proof. unfold create_in, create_source. destruct (c_add c <? 0)%Z; [reflexivity|]. destruct (_ && _); [reflexivity|]. destruct (c_mem c); reflexivity. Qed.
Lemma signal_sigfd t s c r mask prio name l : grown t -> nearest t r l -> (0 <= c_mask c)%Z -> (0 <= c_sigfd c)%Z -> In l (s_sigfd (fst (create_signal t s c r mask prio name))).
Proof.
  intros G N L1 L2. unfold create_signal. rewrite (near_loop t r l G N). destruct (Z.ltb_spec (c_mask c) 0) as [X|_]; [lia|]. cbn [set_mask s_sigfd]. destruct (in_list l (s_sigfd s)) eqn:E; [apply in_list_in, E|].
  destruct (Z.ltb_spec (c_sigfd c) 0) as [X|_]; [lia|]. cbn [set_mask s_srcs s_sd s_next s_sigfd s_mask].
  match goal with |- context [create_in ?s0 _ _ _ _ _ _ _ _] => pose proof (create_in_sigfd s0 c l r KSignal prio name UNLIMITED 0) as Y; destruct (create_in s0 c l r KSignal prio name UNLIMITED 0) as [s' e] end.
  cbn [fst] in Y. destruct (e <? 0)%Z; cbn [fst set_mask s_sigfd]; rewrite Y; left; reflexivity.
Qed.
Lemma step_sigfd t s a s' l : step t s a = Ok s' -> In l (s_sigfd s) -> In l (s_sigfd s').
Proof.
  intros H I. destruct a as [c r k prio name|c r mask prio name|c r d usec prio name|n]; cbn [step] in H.
  - injection H as <-. unfold create_plain. destruct (with_loop t r); [rewrite create_in_sigfd|]; exact I.
  - injection H as <-. unfold create_signal. destruct (with_loop t r); [|exact I]. destruct (c_mask c <? 0)%Z; [exact I|]. cbn [set_mask s_sigfd s_srcs s_sd s_next s_mask]. destruct (in_list _ _); [exact I|]. destruct (c_sigfd c <? 0)%Z; [exact I|].
    match goal with |- context [create_in ?s0 ?c ?l ?r ?k ?p ?n ?m ?t] => pose proof (create_in_sigfd s0 c l r k p n m t) as Y; destruct (create_in s0 c l r k p n m t) as [s' e] end.
    cbn [fst s_sigfd] in Y. destruct (e <? 0)%Z; cbn [fst set_mask s_sigfd]; rewrite Y; right; exact I.
  - injection H as <-. unfold create_time. destruct (with_loop t r); [|exact I]. destruct d; [rewrite create_in_sigfd; exact I|]. destruct (c_now c <? 0)%Z; [exact I|]. destruct (_ <=? _)%N; [exact I|]. rewrite create_in_sigfd. exact I.
  - destruct (nth_error (s_srcs s) n) as [[r x]|]; [|injection H as <-; exact I]. unfold destroy in H. destruct (find _ _) as [[r0 x0]|]; [|discriminate H]. destruct (x_name x0); [|discriminate H]. injection H as <-. exact I.
Qed.
Lemma steps_sigfd t l : forall acts s s', steps t s acts = Ok s' -> In l (s_sigfd s) -> In l (s_sigfd s').
Proof.
  induction acts as [|a acts IH]; intros s s' H I; cbn [steps] in H; [injection H as <-; exact I|]. destruct (step t s a) as [s1|] eqn:E; [|discriminate H]. cbn [obind] in H. exact (IH s1 s' H (step_sigfd t s a s1 l E I)).
Qed.
Lemma signal_again t s c r mask prio name l : grown t -> nearest t r l -> (0 <= c_mask c)%Z -> (0 <= c_sigfd c)%Z ->
  forall acts s', steps t (fst (create_signal t s c r mask prio name)) acts = Ok s' -> forall r' c' mask' prio' name', nearest t r' l -> (0 <= c_mask c')%Z -> snd (create_signal t s' c' r' mask' prio' name') = (-98)%Z.
Proof. intros G N L1 L2 acts s' H r' c' mask' prio' name' N' L'. apply (refused t s' c' r' mask' prio' name' l G N'); [|exact L']. apply (steps_sigfd t l acts _ s' H). apply signal_sigfd; assumption. Qed.
Lemma unnamed_lemma s c l r k prio max time : lucky c -> (forall l sd, In (l, sd) (s_sd s) -> sd < s_next s) -> (forall r x, In (r, x) (s_srcs s) -> x_sd x < s_next s) ->
  exists s', create_in s c l r k prio None max time = (s', 0%Z) /\ destroy s' (s_next s) = UB.
Proof.
  intros ((L1 & L2 & L3 & L4 & L5) & M) F Fx. unfold create_in, create_source. rewrite M. destruct (Z.ltb_spec (c_add c) 0) as [X|_]; [lia|]. destruct (Z.ltb_spec (c_prio c) 0) as [X|_]; [lia|]. rewrite andb_false_r.
  eexists. split; [reflexivity|]. unfold destroy. cbn [s_srcs add_sd]. set (x := (r, Src (s_next s) k None (create max) time)).
  assert (E : find (fun y => x_sd (snd y) =? s_next s) (s_srcs s ++ [x]) = Some x).
  { clear - Fx. induction (s_srcs s) as [|[a b] q IH]; cbn [app find snd].
    - unfold x. cbn [snd x_sd]. rewrite Nat.eqb_refl. reflexivity.
    - replace (x_sd b =? s_next s) with false by (symmetry; apply Nat.eqb_neq; specialize (Fx a b (or_introl eq_refl)); lia). apply IH. intros a' b' H. apply (Fx a'). right. exact H. }
  rewrite E. reflexivity.
Qed.
Lemma unnamed_theorem t s c r k prio l : reached t s -> nearest t r l -> lucky c -> exists s' sd, create_plain t s c r k prio None = (s', 0%Z) /\ destroy s' sd = UB /\ exists x, In (r, x) (s_srcs s') /\ x_sd x = sd.
Proof.
  intros R N L. destruct (reached_inv t s R) as (G & I). unfold create_plain. rewrite (near_loop t r l G N). pose proof (src_next t s I) as Fx.
  destruct (unnamed_lemma s c l r k prio (max_of k) 0 L (i_next t s I) Fx) as (s' & H & U). exists s', (s_next s). split; [exact H|]. split; [exact U|].
  unfold create_in, create_source in H. destruct L as ((L1 & L2 & L3 & L4 & L5) & M). rewrite M in H. destruct (Z.ltb_spec (c_add c) 0) as [X|_]; [lia|]. destruct (Z.ltb_spec (c_prio c) 0) as [X|_]; [lia|]. rewrite andb_false_r in H.
  injection H as <-. cbn [s_srcs]. eexists. split; [apply in_or_app; right; left; reflexivity|reflexivity].
Qed.
(* timers set again *)
Lemma rearm_lemma t r x d usec set clock now time : (0 <= clock)%Z -> (0 <= now)%Z -> set = 0%Z -> (exists l, nearest t r l) -> grown t -> (d = REL -> time + usec < 18446744073709551615)%N -> (e_fired (x_ev x) < 18446744073709551613)%N ->
  rearm t r x d usec set clock now time = (Src (x_sd x) (x_kind x) (x_name x) (Ev (e_fired (x_ev x)) (e_fired (x_ev x) + 1) Oneshot) (deadline time d usec), 0%Z).
Proof.
  intros Lc Ln -> (l & N) G F Lf. unfold rearm.
  assert (C : set_counter (x_ev x) REL 1 = Ev (e_fired (x_ev x)) (e_fired (x_ev x) + 1) Oneshot).
  { unfold set_counter, add64, UNLIMITED. change (1 =? 18446744073709551615)%N with false. cbv iota. rewrite N.mod_small by lia.
    replace ((e_fired (x_ev x) + 1 =? 18446744073709551615)%N || (e_fired (x_ev x) + 1 <? e_fired (x_ev x))%N) with false by (symmetry; apply orb_false_iff; split; lia).
    cbv iota. replace (e_fired (x_ev x) =? e_fired (x_ev x) + 1)%N with false by (symmetry; apply N.eqb_neq; lia). cbv iota. rewrite N.eqb_refl. reflexivity. }
  destruct d; cbn [deadline].
  - change (0 <? 0)%Z with false. cbv iota. rewrite C. reflexivity.
  - rewrite (near_loop t r l G N). destruct (Z.ltb_spec clock 0) as [X|_]; [lia|]. destruct (Z.ltb_spec now 0) as [X|_]; [lia|]. specialize (F eq_refl). destruct (N.leb_spec (U64MAX - time) usec) as [X|_]; [unfold U64MAX in X; lia|].
    change (negb (0 =? 0)%Z) with false. cbv iota. rewrite C. reflexivity.
Qed.
Lemma rearm_fails t r x d usec set clock now time x' e : rearm t r x d usec set clock now time = (x', e) -> e <> 0%Z -> x' = x.
Proof.
  unfold rearm. destruct d.
  - destruct (set <? 0)%Z; intros H; injection H as <- <-; [reflexivity|intros X; elim X; reflexivity].
  - destruct (with_loop t r); [|intros H _; congruence]. destruct (clock <? 0)%Z; [intros H _; congruence|]. destruct (now <? 0)%Z; [intros H _; congruence|]. destruct (_ <=? _)%N; [intros H _; congruence|].
    destruct (negb (set =? 0)%Z); intros H; injection H as <- <-; [reflexivity|intros X; elim X; reflexivity].
Qed.
Lemma rearm_refuted t r x usec set clock now time : (set < 0)%Z -> rearm t r x ABS usec set clock now time = (x, 1%Z).
Proof. intros L. unfold rearm. destruct (Z.ltb_spec set 0) as [_|X]; [reflexivity|lia]. Qed.
Lemma destroy_theorem t s r x : reached t s -> In (r, x) (s_srcs s) -> exists s', destroy s (x_sd x) = Ok s'
  /\ (forall y, In y (s_srcs s') <-> In y (s_srcs s) /\ y <> (r, x)) /\ (forall y, In y (s_sd s') <-> In y (s_sd s) /\ snd y <> x_sd x).
Proof.
  intros R H. destruct (reached_inv t s R) as (G & I). destruct (destroy_lemma t s r x I H) as (s' & E & _ & _ & F1 & F2). exists s'. split; [exact E|]. split; [|exact F2].
  intros y. rewrite F1. split; intros (A & C); (split; [exact A|]).
  - intros ->. apply C. reflexivity.
  - intros Eq. apply C. destruct (i_match t s I) as (_ & _ & D). clear - A H Eq D. revert D A H Eq. generalize (s_srcs s). induction l as [|z l IH]; intros D A H Eq; [destruct A|].
    cbn [map] in D. inversion D as [|? ? D1 D2]; subst. destruct A as [->|A], H as [->|H]; try reflexivity.
    + exfalso. apply D1. rewrite Eq. apply in_map_iff. exists (r, x). auto.
    + exfalso. apply D1. cbn [snd]. rewrite <- Eq. apply in_map_iff. exists y. auto.
    + apply IH; assumption.
Qed.
