From Verif Require Import Base WrkSig_Model WrkSig_Spec.
Local Open Scope N_scope.
Ltac sp := repeat match goal with |- _ /\ _ => split end.

Lemma mask_kept m s : c_restore s = true -> forall n, fst (make_worker m s) n = m n.
Proof. intros R n. unfold make_worker. destruct (c_channels s), (c_fillset s), (c_block s); cbn; rewrite ?R; reflexivity. Qed.
Lemma made_is m s : snd (make_worker m s) = 0%Z <-> c_channels s = true /\ c_fillset s = true /\ c_block s = true /\ (0 <= c_fork s)%Z /\ c_proxy s = true.
Proof.
  unfold make_worker. destruct (c_channels s), (c_fillset s), (c_block s); cbn; try (split; [discriminate | intros (A & B & C & _); discriminate]).
  destruct (c_fork s <? 0)%Z eqn:F; [split; [discriminate | lia]|]. destruct (c_proxy s); split; try discriminate; [intros _; sp; auto; lia | intros; reflexivity | intros (_ & _ & _ & _ & X); discriminate].
Qed.

Definition sig (c : setting) : N := match c_type c with Internal => 10 | External => 15 end.
Record inv (c : setting) (p : proc) : Prop := Inv {
  i_blocked : forall n, x_blocked p n = true;
  i_loop : x_place p = P_loop -> x_signalfd p = [15; 2; 10] /\ c_type c = Internal;
  i_asked : gone p = false -> x_place p <> P_forked -> c_prctl c = true -> x_deathsig p = Some (sig c);
  i_early : x_place p = P_forked -> x_deathsig p = None;
  i_dead : c_prctl c = true -> x_parent p = false -> match x_place p with
    | P_checked | P_program => In (sig c) (x_pending p) | P_loop => In (sig c) (x_pending p) \/ x_parent_exited p = true | _ => True end;
  i_prog : x_place p = P_program -> c_type c = External;
  i_sig : forall n, x_deathsig p = Some n -> n = sig c }.
Lemma has_in n l : existsb (N.eqb n) l = true <-> In n l.
Proof. rewrite existsb_exists. split; [intros (x & I & E); apply N.eqb_eq in E; now subst | intros I; exists n; split; [exact I | apply N.eqb_refl]]. Qed.

Lemma send_is c n p : inv c p -> send n p = p \/ (n = 9 /\ gone p = false /\ send n p = at_place p P_killed)
  \/ (n <> 9 /\ ~ In n (x_pending p) /\ send n p = Proc (x_place p) (x_blocked p) (x_pending p ++ [n]) (x_deathsig p) (x_parent p) (x_signalfd p) (x_parent_exited p) (x_ending p)).
Proof.
  intros I. unfold send. destruct (gone p) eqn:G; [now left|]. destruct (n =? SIGKILL) eqn:K; [right; left; apply N.eqb_eq in K; now sp|].
  destruct ((n =? SIGSTOP) || (n =? 0)); [now left|]. rewrite (i_blocked c p I). destruct (existsb (N.eqb n) (x_pending p)) eqn:E; [now left|].
  right. right. sp; [now apply N.eqb_neq in K | intros X; apply has_in in X; congruence | reflexivity].
Qed.
Lemma send_in c n p : inv c p -> gone p = false -> n <> 9 -> n <> 19 -> n <> 0 -> In n (x_pending (send n p)) /\ x_place (send n p) = x_place p.
Proof.
  intros I G A B C. unfold send. rewrite G. replace (n =? SIGKILL) with false by (symmetry; now apply N.eqb_neq).
  replace (n =? SIGSTOP) with false by (symmetry; now apply N.eqb_neq). replace (n =? 0) with false by (symmetry; now apply N.eqb_neq). cbn [orb].
  rewrite (i_blocked c p I). destruct (existsb (N.eqb n) (x_pending p)) eqn:E; [split; [now apply has_in | reflexivity]|].
  cbn. split; [apply in_or_app; right; now left | reflexivity].
Qed.
Lemma inv_send c n p : inv c p -> inv c (send n p).
Proof.
  intros I. destruct (send_is c n p I) as [-> | [(-> & G & ->) | (_ & _ & ->)]]; [exact I | |].
  - destruct I as [A B C D E F H]. constructor; cbn; try discriminate; auto.
  - destruct I as [A B C D E F H]. constructor; cbn; auto. intros X Y. specialize (E X Y). destruct (x_place p); auto; try (apply in_or_app; now left).
    destruct E as [E|E]; [left; apply in_or_app; now left | now right].
Qed.
Lemma inv_dies c p : inv c p -> inv c (parent_dies p).
Proof.
  intros I. unfold parent_dies. destruct (x_parent p) eqn:XP; [|exact I].
  set (q := Proc (x_place p) (x_blocked p) (x_pending p) (x_deathsig p) false (x_signalfd p) (x_parent_exited p) (x_ending p)).
  destruct I as [A B C D E F H].
  assert (G0 : gone q = gone p) by reflexivity.
  destruct (x_deathsig p) as [n|] eqn:DS.
  - (* the signal of the parent's death *)
    assert (Q : forall r, x_place r = x_place p -> x_signalfd r = x_signalfd p -> x_deathsig r = x_deathsig p -> (forall n, x_blocked r n = true)
              -> (gone p = false -> c_prctl c = true -> x_place p <> P_forked -> In (sig c) (x_pending r)) -> inv c r).
    { intros r R1 R2 R3 R4 R5. constructor; rewrite ?R1, ?R2, ?R3; auto.
      - intros G. unfold gone in G. rewrite R1 in G. intros X Y. rewrite DS. now apply C.
      - intros X. specialize (D X). congruence.
      - intros X _. destruct (x_place p) eqn:P; auto; try (left); apply R5; auto; try congruence; unfold gone; now rewrite P.
      - rewrite DS. exact H. }
    unfold send. rewrite G0. destruct (gone p) eqn:G; [apply Q; auto; congruence|].
    destruct (n =? SIGKILL) eqn:K; [constructor; cbn; try discriminate; auto|].
    assert (SG : x_place p <> P_forked -> c_prctl c = true -> n = sig c) by (intros X Y; specialize (C eq_refl X Y); congruence).
    destruct ((n =? SIGSTOP) || (n =? 0)) eqn:Z0.
    { apply Q; auto. intros _ X Y. exfalso. specialize (SG Y X). subst n. unfold sig in Z0. destruct (c_type c); discriminate. }
    cbn [q x_blocked x_pending]. rewrite A. destruct (existsb (N.eqb n) (x_pending p)) eqn:X.
    + apply Q; auto. intros _ Y Z. rewrite <- (SG Z Y). now apply has_in.
    + apply Q; auto. intros _ Y Z. rewrite <- (SG Z Y). cbn. apply in_or_app. right. now left.
  - constructor; cbn; auto; fold q.
    intros X _. destruct (x_place p) eqn:P; auto; exfalso; assert (Y : None = Some (sig c)) by (apply C; [unfold gone; now rewrite P | congruence | exact X]); discriminate.
Qed.
Lemma take_is fds l : match take fds l with
  | Some (n, l') => In n fds /\ length l = S (length l') /\ (forall k, In k l <-> k = n \/ In k l')
  | None => forall k, In k fds -> ~ In k l end.
Proof.
  induction l as [|n l IH]; cbn [take]; [intros k _ []|]. destruct (existsb (N.eqb n) fds) eqn:E.
  - sp; [now apply has_in | reflexivity | intros k; cbn; intuition congruence].
  - destruct (take fds l) as [[k l']|].
    + destruct IH as (A & Bq & C). sp; [exact A | cbn; lia | intros j; cbn; rewrite C; intuition congruence].
    + intros k K [<-|X]; [apply has_in in K; congruence | exact (IH k K X)].
Qed.
(* One signal is taken *)
Definition without (p : proc) (l : list N) : proc := Proc (x_place p) (x_blocked p) l (x_deathsig p) (x_parent p) (x_signalfd p) (x_parent_exited p) (x_ending p).
Lemma loop_step c p : inv c p -> x_place p = P_loop -> x_ending p = false ->
  (go_on c p = p /\ ~ In 15 (x_pending p) /\ ~ In 2 (x_pending p) /\ ~ In 10 (x_pending p))
  \/ exists n l, length (x_pending p) = S (length l) /\ (forall k, In k (x_pending p) <-> k = n \/ In k l) /\ (n = 15 \/ n = 2 \/ n = 10)
     /\ go_on c p = Proc P_loop (x_blocked p) l (x_deathsig p) (x_parent p) (x_signalfd p) (x_parent_exited p || (n =? 10)) ((n =? 15) || (n =? 2)).
Proof.
  intros I P E. destruct (i_loop c p I P) as (SF & _). unfold go_on. rewrite P, E, SF. pose proof (take_is [15; 2; 10] (x_pending p)) as T.
  destruct (take [15; 2; 10] (x_pending p)) as [[n l]|].
  - right. destruct T as (A & Bq & C). exists n, l. sp; auto.
    + destruct A as [<- | [<- | [<- | []]]]; auto.
    + unfold on_signal, SIGTERM, SIGINT, SIGUSR1. cbn [x_place x_blocked x_pending x_deathsig x_parent x_signalfd x_parent_exited x_ending].
      destruct A as [<- | [<- | [<- | []]]]; cbn; rewrite ?orb_false_r, ?orb_true_r, ?E; reflexivity.
  - left. sp; auto; apply T; cbn; auto.
Qed.
Lemma inv_step c p : inv c p -> inv c (go_on c p).
Proof.
  intros I. destruct (x_place p) eqn:P.
  - unfold go_on. rewrite P. destruct I as [A B C D E F H]. constructor; cbn; try discriminate; auto.
    * intros _ _ X. rewrite X. unfold sig. destruct (c_type c); reflexivity.
    * intros n. destruct (c_prctl c); [|apply H]. intros X. injection X as <-. unfold sig. destruct (c_type c); reflexivity.
  - unfold go_on. rewrite P. destruct (x_parent p) eqn:XP.
    + destruct I as [A B C D E F H]. constructor; cbn; try discriminate; auto.
      * intros _ _ X. apply C; [unfold gone; now rewrite P | congruence | exact X].
      * congruence.
    + pose proof (inv_send c SIGTERM p I) as J. destruct (gone (send SIGTERM p)); [exact J|]. destruct J as [A B C D E F H]. constructor; cbn; try discriminate; auto.
  - unfold go_on. rewrite P. destruct I as [A B C D E F H]. rewrite P in *. destruct (negb (c_init c)).
    { constructor; cbn; try discriminate; auto. }
    assert (DS : c_prctl c = true -> x_deathsig p = Some (sig c)) by (intros X; apply C; [unfold gone; now rewrite P | congruence | exact X]).
    destruct (c_type c) eqn:T.
    + constructor; cbn; try discriminate; auto. intros n. now rewrite A.
    + constructor; cbn; try discriminate; auto.
  - destruct (x_ending p) eqn:EN.
    + unfold go_on. rewrite P, EN. destruct I as [A B C D E F H]. constructor; cbn; try discriminate; auto.
    + destruct (loop_step c p I P EN) as [(-> & _) | (n & l & L & M & N0 & ->)]; [exact I|].
      pose proof (i_loop c p I P) as LP. destruct I as [A B C D E F H]. rewrite P in *. constructor; cbn; try discriminate; auto.
      * intros _ X Y. apply C; [unfold gone; now rewrite P | exact X | exact Y].
      * intros X Y. destruct (E X Y) as [Z|Z]; [|right; now rewrite Z]. apply M in Z. destruct Z as [Z|Z]; [|now left].
        right. subst n. destruct LP as (_ & T). unfold sig. rewrite T. cbn. apply orb_true_r.
  - unfold go_on. now rewrite P.
  - unfold go_on. now rewrite P.
  - unfold go_on. now rewrite P.
Qed.
Lemma inv_does c p a : inv c p -> inv c (does c p a).
Proof. destruct a; cbn [does]; [apply inv_step | apply inv_dies | apply inv_send]. Qed.
Lemma inv_fold c l : forall p, inv c p -> inv c (fold_left (does c) l p).
Proof. induction l as [|a l IH]; intros p I; [exact I|]. cbn [fold_left]. apply IH. now apply inv_does. Qed.
Lemma inv_run c l : inv c (run c l).
Proof. apply inv_fold. constructor; cbn; try discriminate; auto. intros _ X. congruence. Qed.

(* it is over *)
Lemma gone_over p : gone p = true <-> over (x_place p).
Proof. unfold gone, over. destruct (x_place p); split; try discriminate; auto; intros [X|X]; discriminate. Qed.
Lemma over_does c p a : over (x_place p) -> x_place (does c p a) = x_place p.
Proof.
  intros O. pose proof (proj2 (gone_over p) O) as G. destruct a; cbn [does].
  - unfold go_on. destruct O as [E|E]; rewrite E; exact E.
  - unfold parent_dies. destruct (x_parent p); [|reflexivity]. destruct (x_deathsig p); [|reflexivity]. unfold send.
    match goal with |- context [gone ?q] => change (gone q) with (gone p) end. rewrite G. reflexivity.
  - unfold send. now rewrite G.
Qed.
Lemma over_fold c l : forall p, over (x_place p) -> x_place (fold_left (does c) l p) = x_place p.
Proof. induction l as [|a l IH]; intros p O; [reflexivity|]. cbn [fold_left]. rewrite IH; [now apply over_does | rewrite over_does; assumption]. Qed.
Lemma run_app c a b : run c (a ++ b) = fold_left (does c) b (run c a).
Proof. unfold run. apply fold_left_app. Qed.
Lemma kill_over c l : In (A_signal 9) l -> over (x_place (run c l)).
Proof.
  intros I. apply in_split in I as (a & b & ->). rewrite run_app. cbn [fold_left does]. set (p := run c a).
  assert (O : over (x_place (send 9 p))). { unfold send. destruct (gone p) eqn:G; [now apply gone_over | right; reflexivity]. }
  rewrite over_fold; exact O.
Qed.
(* No other signal ends it *)
Lemma send_place c n p : inv c p -> n <> 9 -> x_place (send n p) = x_place p.
Proof. intros I X. destruct (send_is c n p I) as [-> | [(Y & _) | (_ & _ & ->)]]; [reflexivity | congruence | reflexivity]. Qed.
Lemma dead_parent c p : inv c p -> inv c (Proc (x_place p) (x_blocked p) (x_pending p) (x_deathsig p) true (x_signalfd p) (x_parent_exited p) (x_ending p)).
Proof. intros [A B C D E F H]. constructor; cbn; auto. discriminate. Qed.
Lemma send_parent n p b : let q := Proc (x_place p) (x_blocked p) (x_pending p) (x_deathsig p) b (x_signalfd p) (x_parent_exited p) (x_ending p) in
  x_place (send n q) = x_place (send n p) /\ x_pending (send n q) = x_pending (send n p) /\ x_ending (send n q) = x_ending (send n p).
Proof.
  intros q. unfold send. change (gone q) with (gone p). destruct (gone p); [now sp|]. destruct (n =? SIGKILL); [now sp|]. destruct ((n =? SIGSTOP) || (n =? 0)); [now sp|].
  change (x_blocked q n) with (x_blocked p n). change (x_pending q) with (x_pending p). destruct (x_blocked p n); [destruct (existsb (N.eqb n) (x_pending p)); now sp|]. destruct (harmless n); now sp.
Qed.
Lemma dies_is c p : inv c p -> x_place (parent_dies p) = x_place p /\ x_ending (parent_dies p) = x_ending p /\ (forall k, In k (x_pending p) -> In k (x_pending (parent_dies p))).
Proof.
  intros I. unfold parent_dies. destruct (x_parent p); [|now sp]. destruct (x_deathsig p) as [n|] eqn:DS; [|cbn; now sp].
  rewrite <- DS. destruct (send_parent n p false) as (-> & -> & ->). pose proof (i_sig c p I n DS) as ->.
  assert (K : sig c <> 9) by (unfold sig; destruct (c_type c); discriminate).
  destruct (send_is c (sig c) p I) as [-> | [(Y & _) | (_ & _ & ->)]]; [now sp | congruence | cbn; sp; auto]. intros k X. apply in_or_app. now left.
Qed.
Lemma not_killed c l : ~ In (A_signal 9) l -> x_place (run c l) <> P_killed.
Proof.
  induction l as [|a l IH] using rev_ind; intros X; [discriminate|]. rewrite run_app. cbn [fold_left]. pose proof (inv_run c l) as I. set (p := run c l) in *.
  assert (P : x_place p <> P_killed) by (apply IH; intros Y; apply X; apply in_or_app; now left). destruct a; cbn [does].
  - destruct (x_place p) eqn:E; unfold go_on; rewrite E.
    + discriminate.
    + destruct (x_parent p); [discriminate|]. cbv zeta. destruct (gone (send SIGTERM p)); [rewrite (send_place c) by (assumption || discriminate); congruence | discriminate].
    + destruct (negb (c_init c)); [discriminate|]. destruct (c_type c); discriminate.
    + destruct (x_ending p) eqn:EN; [discriminate|]. pose proof (loop_step c p I E EN) as L. unfold go_on in L. rewrite E, EN in L.
      destruct L as [(L & _) | (n & l' & _ & _ & _ & L)]; rewrite L; [congruence | discriminate].
    + congruence.
    + congruence.
    + congruence.
  - rewrite (proj1 (dies_is c p I)). exact P.
  - destruct (N.eq_dec n 9) as [-> | NE]; [exfalso; apply X; apply in_or_app; right; now left|]. rewrite (send_place c) by assumption. exact P.
Qed.
(* A program is ended by none *)
Lemma program_fold c l : forall p, inv c p -> x_place p = P_program -> ~ In (A_signal 9) l -> x_place (fold_left (does c) l p) = P_program.
Proof.
  induction l as [|a l IH]; intros p I P X; [exact P|]. cbn [fold_left]. apply IH; [now apply inv_does | | intros Y; apply X; now right].
  destruct a; cbn [does].
  - unfold go_on. rewrite P. exact P.
  - now rewrite (proj1 (dies_is c p I)).
  - rewrite (send_place c); [exact P | exact I | intros ->; apply X; now left].
Qed.
(* The parent is gone before the check *)
Lemma orphan_does c p a : inv c p -> (starting (x_place p) \/ over (x_place p)) -> x_parent p = false ->
  (starting (x_place (does c p a)) \/ over (x_place (does c p a))) /\ x_parent (does c p a) = false.
Proof.
  intros I [S|O] D.
  - destruct a; cbn [does].
    + unfold go_on. destruct S as [E|E]; rewrite E.
      * split; [left; right; reflexivity | exact D].
      * rewrite D. cbv zeta. assert (PT : x_parent (send SIGTERM p) = false) by (destruct (send_is c SIGTERM p I) as [-> | [(_ & _ & ->) | (_ & _ & ->)]]; exact D).
        destruct (gone (send SIGTERM p)) eqn:G; (split; [right | exact PT]); [now apply gone_over | left; reflexivity].
    + rewrite (proj1 (dies_is c p I)). split; [now left|]. unfold parent_dies. now rewrite D.
    + destruct (send_is c n p I) as [-> | [(_ & _ & ->) | (_ & _ & ->)]]; (split; [|exact D]); [now left | right; right; reflexivity | now left].
  - split; [right; now rewrite over_does|]. destruct a; cbn [does].
    + unfold go_on. destruct O as [E|E]; rewrite E; exact D.
    + unfold parent_dies. now rewrite D.
    + destruct (send_is c n p I) as [-> | [(_ & _ & ->) | (_ & _ & ->)]]; exact D.
Qed.
Lemma orphan c l1 l2 : starting (x_place (run c l1)) -> x_parent (run c l1) = false -> starting (x_place (run c (l1 ++ l2))) \/ over (x_place (run c (l1 ++ l2))).
Proof.
  intros S D. rewrite run_app. pose proof (inv_run c l1) as I. set (p := run c l1) in *. clearbody p.
  assert (G : starting (x_place p) \/ over (x_place p)) by now left. clear S. revert p I D G.
  induction l2 as [|a l IH]; intros p I D G; [exact G|]. cbn [fold_left]. destruct (orphan_does c p a I G D) as (A & B). apply IH; [now apply inv_does | exact B | exact A].
Qed.
(* A signal to end is not lost *)
Definition noted (n : N) (p : proc) : Prop := over (x_place p) \/ In n (x_pending p) \/ (x_place p = P_loop /\ x_ending p = true).
Lemma noted_does c n p a : n = 15 \/ n = 2 -> inv c p -> noted n p -> noted n (does c p a).
Proof.
  intros N0 I R. destruct (gone p) eqn:G. { left. apply gone_over in G. now rewrite over_does. }
  assert (R' : In n (x_pending p) \/ (x_place p = P_loop /\ x_ending p = true)) by (destruct R as [R|R]; [apply gone_over in R; congruence | exact R]). clear R.
  destruct a; cbn [does].
  - destruct (x_place p) eqn:P; try (unfold gone in G; rewrite P in G; discriminate).
    + destruct R' as [R|(R & _)]; [|discriminate]. right. left. unfold go_on. rewrite P. exact R.
    + destruct R' as [R|(R & _)]; [|discriminate]. unfold go_on. rewrite P. destruct (x_parent p); [right; left; exact R|]. cbv zeta.
      destruct (gone (send SIGTERM p)) eqn:G2; left; [now apply gone_over | left; reflexivity].
    + destruct R' as [R|(R & _)]; [|discriminate]. unfold go_on. rewrite P. destruct (negb (c_init c)); [left; left; reflexivity|]. right. left. destruct (c_type c); exact R.
    + destruct (x_ending p) eqn:EN; [left; left; unfold go_on; rewrite P, EN; reflexivity|]. destruct R' as [R|(_ & R)]; [|discriminate].
      destruct (loop_step c p I P EN) as [(-> & _) | (k & l & _ & M & _ & ->)]; [right; now left|]. apply M in R. destruct R as [R|R]; [subst k|right; left; exact R].
      right. right. split; [reflexivity|]. cbn. destruct N0 as [-> | ->]; reflexivity.
    + destruct R' as [R|(R & _)]; [|discriminate]. right. left. unfold go_on. rewrite P. exact R.
  - destruct (dies_is c p I) as (A & B & C). right. destruct R' as [R|(R1 & R2)]; [left; now apply C | right; split; congruence].
  - destruct (send_is c n0 p I) as [-> | [(_ & _ & ->) | (_ & _ & ->)]]; [right; exact R' | left; right; reflexivity|].
    right. destruct R' as [R|R]; [left; cbn; apply in_or_app; now left | right; exact R].
Qed.
Lemma noted_run c n l : n = 15 \/ n = 2 -> In (A_signal n) l -> noted n (run c l).
Proof.
  intros N0 X. apply in_split in X as (a & b & ->). rewrite run_app. cbn [fold_left does]. pose proof (inv_run c a) as I. set (p := run c a) in *. clearbody p.
  assert (Q : noted n (send n p)).
  { destruct (gone p) eqn:G; [left; apply gone_over in G; unfold send; rewrite (proj2 (gone_over p) G); exact G|].
    right. left. apply (send_in c); auto; destruct N0 as [-> | ->]; discriminate. }
  pose proof (inv_send c n p I) as J. set (q := send n p) in *. clearbody q. clear p I. revert q J Q. induction b as [|x b IH]; intros q J Q; [exact Q|].
  cbn [fold_left]. apply IH; [now apply inv_does | now apply noted_does].
Qed.
Lemma drain c n k : n = 15 \/ n = 2 -> forall p, inv c p -> x_place p = P_loop -> noted n p -> (length (x_pending p) <= k)%nat ->
  x_place (fold_left (does c) (steps (S k)) p) = P_exited.
Proof.
  intros N0. induction k as [|k IH]; intros p I P R L.
  - change (steps 1) with [A_step]. cbn [fold_left does]. destruct R as [[R|R]|[R|(_ & R)]]; try congruence; [destruct (x_pending p); [destruct R | cbn in L; lia]|].
    unfold go_on. rewrite P, R. reflexivity.
  - change (steps (S (S k))) with (A_step :: steps (S k)). cbn [fold_left]. destruct (x_ending p) eqn:EN.
    + rewrite over_fold; unfold does, go_on; rewrite P, EN; [reflexivity | now left].
    + pose proof (noted_does c n p A_step N0 I R) as R2. pose proof (inv_does c p A_step I) as I2. cbn [does] in *.
      destruct (loop_step c p I P EN) as [(_ & A & Bq & _) | (m & l & L1 & _ & _ & Gq)].
      * destruct R as [[R|R]|[R|(_ & R)]]; try congruence. destruct N0 as [-> | ->]; tauto.
      * rewrite Gq in *. apply IH; [exact I2 | reflexivity | exact R2 | cbn; lia].
Qed.
Lemma ended_by c n l : n = 15 \/ n = 2 -> In (A_signal n) l -> x_place (run c l) = P_loop ->
  x_place (run c (l ++ steps (S (length (x_pending (run c l)))))) = P_exited.
Proof. intros N0 X P. rewrite run_app. apply (drain c n); auto; [apply inv_run | now apply noted_run]. Qed.
(* The death of the parent is noticed *)
Lemma exited_kept c k : forall p, inv c p -> x_parent_exited p = true -> x_place p = P_loop \/ over (x_place p) -> x_parent_exited (fold_left (does c) (steps k) p) = true.
Proof.
  induction k as [|k IH]; intros p I X P; [exact X|]. change (steps (S k)) with (A_step :: steps k). cbn [fold_left].
  pose proof (inv_does c p A_step I) as J. cbn [does] in *. apply IH; [exact J | |].
  - destruct P as [P|[P|P]]; [|unfold go_on; rewrite P; exact X | unfold go_on; rewrite P; exact X].
    destruct (x_ending p) eqn:EN; [unfold go_on; rewrite P, EN; exact X|]. destruct (loop_step c p I P EN) as [(-> & _) | (m & l & _ & _ & _ & ->)]; [exact X | cbn; now rewrite X].
  - destruct P as [P|P]; [|right; change (go_on c p) with (does c p A_step); now rewrite over_does].
    destruct (x_ending p) eqn:EN; [right; left; unfold go_on; rewrite P, EN; reflexivity|]. destruct (loop_step c p I P EN) as [(-> & _) | (m & l & _ & _ & _ & ->)]; [now left | left; reflexivity].
Qed.
Lemma drain_dead c k : forall p, inv c p -> x_place p = P_loop -> In 10 (x_pending p) \/ x_parent_exited p = true -> (length (x_pending p) <= k)%nat ->
  x_place (fold_left (does c) (steps k) p) = P_exited \/ x_parent_exited (fold_left (does c) (steps k) p) = true.
Proof.
  induction k as [|k IH]; intros p I P R L.
  - destruct R as [R|R]; [destruct (x_pending p); [destruct R | cbn in L; lia] | now right].
  - destruct R as [R|R]; [|right; apply exited_kept; auto]. change (steps (S k)) with (A_step :: steps k). cbn [fold_left].
    destruct (x_ending p) eqn:EN.
    + left. rewrite over_fold; unfold does, go_on; rewrite P, EN; [reflexivity | now left].
    + pose proof (inv_does c p A_step I) as J. cbn [does] in *. destruct (loop_step c p I P EN) as [(_ & _ & _ & X) | (m & l & L1 & M & _ & Gq)]; [tauto|].
      rewrite Gq in *. apply IH; [exact J | reflexivity | | cbn; lia]. apply M in R. destruct R as [R|R]; [subst m; right; cbn; apply orb_true_r | left; exact R].
Qed.
Lemma death_noticed c l : c_prctl c = true -> x_place (run c l) = P_loop -> x_parent (run c l) = false ->
  let q := run c (l ++ steps (length (x_pending (run c l)))) in x_place q = P_exited \/ x_parent_exited q = true.
Proof.
  intros PC P D q. unfold q. rewrite run_app. pose proof (inv_run c l) as I. apply drain_dead; auto.
  pose proof (i_dead c _ I PC D) as X. rewrite P in X. destruct (i_loop c _ I P) as (_ & T). unfold sig in X. rewrite T in X. exact X.
Qed.
Lemma outlives c l1 l2 : x_place (run c l1) = P_program -> ~ In (A_signal 9) l2 -> x_place (run c (l1 ++ l2)) = P_program.
Proof. intros P X. rewrite run_app. apply program_fold; auto. apply inv_run. Qed.
Lemma timeouts c l signum : x_place (run c l) = P_program -> x_place (run c (l ++ timeout signum)) = if signum =? 9 then P_killed else P_program.
Proof.
  intros P. unfold timeout. destruct (signum =? 0) eqn:Z0; [apply N.eqb_eq in Z0; subst; rewrite app_nil_r; exact P|].
  destruct (signum =? 9) eqn:E.
  - apply N.eqb_eq in E. subst. rewrite run_app. cbn [fold_left does]. unfold send, gone. rewrite P. reflexivity.
  - apply outlives; auto. intros [X|[]]. injection X as ->. discriminate.
Qed.
