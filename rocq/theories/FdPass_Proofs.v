From Coq Require Import Permutation.
From Verif Require Import Base FdPass_Model FdPass_Spec.
Local Open Scope nat_scope.

Lemma open_in t f : is_open t f = true <-> In f t.
Proof. unfold is_open. rewrite existsb_exists. split; [intros (x & I & E); apply Nat.eqb_eq in E; subst; exact I|intros I; exists f; split; [exact I|apply Nat.eqb_refl]]. Qed.
Lemma close_head t f : ~ In f t -> close (f :: t) (Some f) = Ok t.
Proof.
  intros N. cbn [close]. rewrite (proj2 (open_in (f :: t) f)) by (left; reflexivity). cbn [remove]. destruct (Nat.eq_dec f f); [|contradiction]. rewrite notin_remove by exact N. reflexivity.
Qed.
Lemma nodup_remove f l : NoDup l -> NoDup (remove Nat.eq_dec f l).
Proof.
  induction 1 as [|x l N D IH]; [constructor|]. cbn [remove]. destruct (Nat.eq_dec f x); [exact IH|]. constructor; [|exact IH]. intros I. apply in_remove in I as (I & _). contradiction.
Qed.
Lemma nodup_app_l {A} (l m : list A) : NoDup (l ++ m) -> NoDup l.
Proof. induction l as [|x l IH]; [constructor|]. cbn. intros D. inversion D as [|? ? N D']; subst. constructor; [intros I; apply N, in_or_app; left; exact I|apply IH, D']. Qed.
Lemma nodup_split (f : nat) l m : NoDup (l ++ m) -> In f l -> ~ In f m.
Proof.
  induction l as [|x l IH]; intros D I J; [destruct I|]. cbn in D. inversion D as [|? ? N D']; subst. destruct I as [-> |I]; [apply N, in_or_app; right; exact J|exact (IH D' I J)].
Qed.
Lemma end_holds s t f : holds s t -> In f (con s) -> exists s', end_connection s f = Ok s' /\ holds s' t.
Proof.
  intros (D & P) I. unfold end_connection. cbn [close]. assert (J : In f (opn s)) by (apply (Permutation_in f (Permutation_sym P)), in_or_app; left; exact I).
  rewrite (proj2 (open_in _ _) J). cbn [obind]. eexists. split; [reflexivity|]. assert (Dc : NoDup (con s ++ t)) by (exact (Permutation_NoDup P D)).
  split; cbn [opn con]; [apply nodup_remove, D|]. replace (remove Nat.eq_dec f (con s) ++ t) with (remove Nat.eq_dec f (con s ++ t)).
  - apply NoDup_Permutation; [apply nodup_remove, D|apply nodup_remove, Dc|]. intros x. split; intros K; apply in_remove in K as (K & Nx); apply in_in_remove; auto; [exact (Permutation_in x P K)|exact (Permutation_in x (Permutation_sym P) K)].
  - rewrite remove_app. rewrite (notin_remove Nat.eq_dec t f); [reflexivity|]. exact (nodup_split f _ _ Dc I).
Qed.
Lemma recv_holds pick s t m a : unused pick -> holds s t ->
  exists s' l, worker_step pick s (W_recv m a) = Ok s' /\ holds s' (l ++ t) /\ length l = stray (W_recv m a).
Proof.
  intros U (D & P).
  assert (Same : holds s ([] ++ t)) by (split; [exact D|exact P]).
  assert (Lost : holds (Proc (pick (opn s) :: opn s) (con s)) ([pick (opn s)] ++ t)).
  { split; cbn [opn con app]; [constructor; [apply U|exact D]|]. apply Permutation_cons_app, P. }
  assert (Kept : holds (Proc (pick (opn s) :: opn s) (pick (opn s) :: con s)) ([] ++ t)).
  { split; cbn [opn con app]; [constructor; [apply U|exact D]|]. apply perm_skip, P. }
  assert (Pc : Proc (opn s) (con s) = s) by (destruct s; reflexivity).
  unfold worker_step, stray, has_fd, for_worker. change 16 with HEADER. rewrite Nat.leb_antisym.
  destruct (g_ext m); cbn [arrive]; unfold worker_recv; destruct (g_size m <? HEADER); cbn [obind negb andb];
  destruct (g_cat m); destruct (g_cmd m); unfold worker_resources, new_connection; cbn [obind opn con]; rewrite ?(close_head _ _ (U (opn s))); cbn [close obind opn con andb negb];
  try (destruct (n_res a)); cbn [obind andb negb]; try (destruct (negb (n_conn a) || negb (n_io a) || negb (n_cbuf a))%bool); cbn [obind andb negb]; rewrite ?Pc;
  first [ exists s, []; split; [reflexivity|split; [exact Same|reflexivity]]
        | exists (Proc (pick (opn s) :: opn s) (con s)), [pick (opn s)]; split; [reflexivity|split; [exact Lost|reflexivity]]
        | exists (Proc (pick (opn s) :: opn s) (pick (opn s) :: con s)), []; split; [reflexivity|split; [exact Kept|reflexivity]] ].
Qed.
Lemma worker_lemma pick l : unused pick -> forall s t, holds s t ->
  exists s' lost, worker_run pick s l = Ok s' /\ holds s' (lost ++ t) /\ length lost = strays l.
Proof.
  intros U. induction l as [|p l IH]; intros s t H.
  - exists s, []. split; [reflexivity|split; [exact H|reflexivity]].
  - assert (St : exists s1 l1, worker_step pick s p = Ok s1 /\ holds s1 (l1 ++ t) /\ length l1 = stray p).
    { destruct p as [m a|i]; [apply recv_holds; assumption|]. cbn [worker_step stray]. destruct (nth_error (con s) i) as [f|] eqn:N.
      - destruct (end_holds s t f H (nth_error_In _ _ N)) as (s1 & E & H1). exists s1, []. auto.
      - exists s, []. auto. }
    destruct St as (s1 & l1 & E & H1 & L1). destruct (IH s1 (l1 ++ t) H1) as (s2 & l2 & E2 & H2 & L2).
    exists s2, (l2 ++ l1). cbn [worker_run]. rewrite E. cbn [obind]. split; [exact E2|]. split; [rewrite <- app_assoc; exact H2|].
    rewrite app_length, L1, L2. unfold strays. cbn [map list_sum fold_right]. apply Nat.add_comm.
Qed.
Lemma clean_lemma pick l s t : unused pick -> holds s t -> strays l = 0 -> exists s', worker_run pick s l = Ok s' /\ holds s' t.
Proof.
  intros U H Z. destruct (worker_lemma pick l U s t H) as (s' & lost & E & H' & L). exists s'. split; [exact E|]. rewrite Z in L. destruct lost; [exact H'|discriminate L].
Qed.
Lemma stray_lemma pick m a s t : unused pick -> holds s t -> has_fd m = true -> for_worker m a = false ->
  forall l, exists s', worker_run pick s (W_recv m a :: l) = Ok s' /\ In (pick (opn s)) (opn s') /\ ~ In (pick (opn s)) (con s').
Proof.
  intros U H F N l. assert (E : worker_step pick s (W_recv m a) = Ok (Proc (pick (opn s) :: opn s) (con s))).
  { unfold worker_step, has_fd, for_worker in *. change 16 with HEADER in N. rewrite Nat.leb_antisym in N. destruct (g_ext m); try discriminate F. cbn [arrive]. unfold worker_recv.
    destruct (g_size m <? HEADER); [reflexivity|]. destruct (g_cat m); destruct (g_cmd m); try discriminate N; try reflexivity; cbn [negb andb] in N; unfold new_connection; rewrite N; reflexivity. }
  cbn [worker_run]. rewrite E. cbn [obind]. destruct H as (D & P).
  assert (H1 : holds (Proc (pick (opn s) :: opn s) (con s)) (pick (opn s) :: t)).
  { split; cbn [opn con app]; [constructor; [apply U|exact D]|]. apply Permutation_cons_app, P. }
  destruct (worker_lemma pick l U _ _ H1) as (s' & lost & E' & (D' & P') & _). exists s'. split; [exact E'|].
  assert (I : In (pick (opn s)) (lost ++ pick (opn s) :: t)) by (apply in_or_app; right; left; reflexivity).
  split; [apply (Permutation_in _ (Permutation_sym P')), in_or_app; right; exact I|]. intros J. exact (nodup_split _ _ _ (Permutation_NoDup P' D') J I).
Qed.
Lemma client_lemma pick s m a : unused pick -> g_cat m = CAT_CLIENT -> HEADER <= g_size m -> g_ext m = E_fd -> n_res a = true ->
  worker_step pick s (W_recv m a) = Ok (if n_conn a && n_io a && n_cbuf a then Proc (pick (opn s) :: opn s) (pick (opn s) :: con s) else s).
Proof.
  intros U C L X R. unfold worker_step. rewrite X. cbn [arrive]. unfold worker_recv. rewrite C. destruct (Nat.ltb_spec (g_size m) HEADER); [lia|]. unfold new_connection. rewrite R. cbn [negb opn con].
  rewrite (close_head _ _ (U (opn s))). destruct s. destruct (n_conn a); destruct (n_io a); destruct (n_cbuf a); reflexivity.
Qed.
Lemma main_step pick t m a : unused pick -> NoDup t ->
  exists t' l r, (let (t, o) := arrive pick t (g_ext m) in proxy_recv pick t m o a) = Ok (t', r) /\ t' = l ++ t /\ NoDup t' /\ length l = (if has_fd m && negb (for_main m) then 1 else 0).
Proof.
  intros U D.
  assert (D1 : NoDup (pick t :: t)) by (constructor; [apply U|exact D]).
  unfold has_fd, for_main. change 16 with HEADER. rewrite Nat.leb_antisym.
  destruct (g_ext m); cbn [arrive]; unfold proxy_recv; destruct (g_size m <? HEADER); cbn [negb andb];
  destruct (g_cat m); destruct (g_cmd m); unfold proxy_sync, proxy_resources; rewrite ?(close_head _ _ (U t)), ?(close_head _ _ (U (pick t :: t))); cbn [close obind negb andb];
  try (destruct (n_buf a)); cbn [negb];
  first [ exists t, [], (-1)%Z; split; [reflexivity|auto; fail] | exists t, [], (n_send a); split; [reflexivity|auto; fail]
        | exists (pick t :: t), [pick t], (-1)%Z; split; [reflexivity|auto; fail] | exists (pick t :: t), [pick t], (n_send a); split; [reflexivity|auto; fail] ].
Qed.
Lemma main_lemma pick l : unused pick -> forall t, NoDup t -> exists lost, proxy_run pick t l = Ok (lost ++ t) /\ NoDup (lost ++ t) /\ length lost = main_strays l.
Proof.
  intros U. induction l as [|(m, a) l IH]; intros t D; [exists []; auto|].
  destruct (main_step pick t m a U D) as (t' & l1 & r & E & -> & D1 & L1). cbn [proxy_run]. destruct (arrive pick t (g_ext m)) as (t1, o). rewrite E. cbn [obind].
  destruct (IH _ D1) as (l2 & E2 & D2 & L2). exists (l2 ++ l1). rewrite <- app_assoc. split; [exact E2|]. split; [exact D2|]. rewrite app_length, L1, L2. unfold main_strays. cbn [map list_sum fold_right fst]. apply Nat.add_comm.
Qed.
