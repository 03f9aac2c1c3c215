From Verif Require Import Base BaseUtil_Model Daemon_Model Daemon_Spec.
Local Open Scope Z_scope.
Ltac sp := repeat match goal with |- _ /\ _ => split end.

Lemma options_plain l : forall v f j, forallb plain l = true ->
  options l v f j = inr (v + Z.of_nat (count is_v l), f || existsb (fun o => match o with O_foreground => true | _ => false end) l,
                         j || existsb (fun o => match o with O_journal => true | _ => false end) l).
Proof.
  induction l as [|o l IH]; intros v f j P; [cbn; rewrite Z.add_0_r, !orb_false_r; reflexivity|].
  cbn [forallb] in P. apply andb_prop in P as [P1 P2]. unfold count in *. destruct o; try discriminate; cbn [options existsb filter is_v].
  - rewrite IH by exact P2. cbn [orb]. rewrite orb_true_r. reflexivity.
  - rewrite IH by exact P2. cbn [orb]. rewrite orb_true_r. reflexivity.
  - rewrite IH by exact P2. cbn [orb length]. f_equal. f_equal. f_equal. lia.
Qed.
Lemma options_end pre x post : forall v f j, forallb plain pre = true ->
  options (pre ++ x :: post) v f j = match x with
    | O_help => inl ([E_help false], 0) | O_version => inl ([E_version], 0) | O_other => inl ([E_help true], 22)
    | x => options (pre ++ x :: post) v f j end.
Proof.
  induction pre as [|o l IH]; intros v f j P; [destruct x; reflexivity|].
  cbn [forallb] in P. apply andb_prop in P as [P1 P2]. cbn [app].
  destruct x; try reflexivity; destruct o; try discriminate; cbn [options]; rewrite IH by exact P2; reflexivity.
Qed.
Lemma main_ends pre x post s : forallb plain pre = true -> plain x = false ->
  main (pre ++ x :: post) s = match x with O_help => ([E_help false], 0) | O_version => ([E_version], 0) | _ => ([E_help true], 22) end.
Proof. intros P X. unfold main. rewrite options_end by exact P. destruct x; try discriminate; reflexivity. Qed.

Definition verbosity (l : list opt) (s : answers) : Z :=
  match env_get_ull (s_verbose s) 0 INT_MAX with (0, Some v) => Z.of_N v | _ => Z.of_nat (count is_v l) end.
Lemma existsb_in (f : opt -> bool) o l : (forall x, f x = true <-> x = o) -> existsb f l = true <-> In o l.
Proof.
  intros F. rewrite existsb_exists. split.
  - intros (x & I & E). apply F in E. now subst.
  - intros I. exists o. split; [exact I | now apply F].
Qed.
Definition has_f (l : list opt) := existsb (fun o => match o with O_foreground => true | _ => false end) l.
Definition has_j (l : list opt) := existsb (fun o => match o with O_journal => true | _ => false end) l.
Lemma has_f_in l : has_f l = true <-> In O_foreground l.
Proof. apply existsb_in. intros []; split; congruence. Qed.
Lemma has_j_in l : has_j l = true <-> In O_journal l.
Proof. apply existsb_in. intros []; split; congruence. Qed.
Definition the_target (l : list opt) : target := if has_j l then T_journal else if has_f l then T_standard else T_syslog.
Lemma main_plain l s : forallb plain l = true -> main l s =
  if s_atexit s <? 0 then ([], 1) else if negb (s_log s) then ([], 1)
  else let (e1, x) := if has_f l then ([], None) else become_daemon s in
    match x with
    | Some x => (E_log (the_target l) (verbosity l s) :: e1, x)
    | None => if s_atfork s <? 0 then (E_log (the_target l) (verbosity l s) :: e1, 1)
              else let (e2, x) := serve s (s_atfork s) in (E_log (the_target l) (verbosity l s) :: e1 ++ e2, x)
    end.
Proof. intros P. unfold main. rewrite options_plain by exact P. reflexivity. Qed.

Lemma daemon_events s : match become_daemon s with
  | (e, Some x) => (forall t v, ~ In (E_log t v) e) /\ count event_made e = 0%nat /\ count event_destroyed e = 0%nat /\ ~ In E_loop e /\ (x = 0 <-> In E_forked e)
  | (e, None) => (forall t v, ~ In (E_log t v) e) /\ count event_made e = 0%nat /\ count event_destroyed e = 0%nat /\ ~ In E_loop e /\ ~ In E_forked e /\ becomes_daemon s /\ In E_daemon e
                 /\ In (E_session (0 <? s_setsid s)) e
  end.
Proof.
  unfold become_daemon, becomes_daemon. destruct (s_fork1 s =? -1) eqn:A.
  { cbn. sp; auto; split; [discriminate | tauto]. }
  destruct (s_fork1 s =? 0) eqn:A0; cbn [negb].
  2: { cbn. sp; auto; try (intros; intros [X|[]]; discriminate). split; auto. }
  destruct (s_setsid s =? 0) eqn:S0.
  { cbn. sp; auto; try (intros; intros [X|[]]; discriminate). split; [discriminate | intros [X|[]]; discriminate]. }
  destruct (s_fork2 s =? -1) eqn:C.
  { cbn. sp; auto; try (intros; intros [X|[]]; discriminate). split; [discriminate | intros [X|[]]; discriminate]. }
  destruct (s_fork2 s =? 0) eqn:C0; cbn [negb].
  2: { cbn. sp; auto; try (intros; intros [X|[X|[]]]; discriminate). split; auto. }
  destruct (s_files s) eqn:F; cbn [negb].
  - cbn. sp; auto; try (intros; intros [X|[X|[]]]; discriminate); try lia.
  - cbn. sp; auto; try (intros; intros [X|[]]; discriminate). split; [discriminate | intros [X|[]]; discriminate].
Qed.
Lemma serve_events s r : let (e, x) := serve s r in
  (forall t v, ~ In (E_log t v) e) /\ count event_made e = count event_destroyed e /\ ~ In E_forked e /\ (In E_loop e <-> s_create s = true)
  /\ (s_create s = true -> (x = 0 <-> ended_well s)) /\ (s_create s = false -> e = [] /\ x = status r).
Proof.
  unfold serve. destruct (s_create s) eqn:C; cbn [ref option_map].
  2: { cbn. sp; auto; try tauto; try discriminate. split; [tauto | discriminate]. }
  unfold loop_run. cbn [ref option_map unref]. destruct (s_loop s =? - ECHILD) eqn:L.
  - destruct (s_control s) eqn:K; cbn [negb].
    + cbn. sp; try (intros; intuition discriminate).
      intros _. unfold ended_well, status. rewrite K. apply Z.eqb_eq in L. rewrite L. destruct (s_worker s <? 0) eqn:W; unfold EXIT_FAILURE, EXIT_SUCCESS, ECHILD; split; intros X; try discriminate; try lia.
    + cbn. sp; try (intros; intuition discriminate).
      intros _. unfold ended_well, status. rewrite K. apply Z.eqb_eq in L. rewrite L. split; [discriminate|]. intros [X|(_ & X & _)]; [unfold ECHILD in X; lia | discriminate].
  - cbn. sp; try (intros; intuition discriminate).
    intros _. unfold ended_well, status. apply Z.eqb_neq in L. destruct (s_loop s <? 0) eqn:W; unfold EXIT_FAILURE, EXIT_SUCCESS, ECHILD in *; split; intros X; try discriminate; try lia.
Qed.
Lemma count_app {A} (f : A -> bool) a b : count f (a ++ b) = (count f a + count f b)%nat.
Proof. unfold count. now rewrite filter_app, app_length. Qed.
Lemma count_log f t v e : f (E_log t v) = false -> count f (E_log t v :: e) = count f e.
Proof. intros X. unfold count. cbn [filter]. now rewrite X. Qed.

Lemma become_goes s : becomes_daemon s -> s_setsid s <> 0 -> snd (become_daemon s) = None.
Proof.
  intros (A & B & C) D. unfold become_daemon. rewrite A, B, C. change (0 =? -1) with false. change (0 =? 0) with true. cbn [negb].
  replace (s_setsid s =? 0) with false by (symmetry; now apply Z.eqb_neq). reflexivity.
Qed.

Lemma settings l s t v : In (E_log t v) (fst (main l s)) ->
  forallb plain l = true /\ v = match env_get_ull (s_verbose s) 0 2147483647 with (0, Some v) => Z.of_N v | _ => Z.of_nat (count is_v l) end
  /\ (t = T_journal <-> In O_journal l) /\ (t = T_standard <-> In O_foreground l /\ ~ In O_journal l).
Proof.
  intros I. destruct (forallb plain l) eqn:P.
  - split; [reflexivity|]. rewrite main_plain in I by exact P. destruct (s_atexit s <? 0); [destruct I|]. destruct (negb (s_log s)); [destruct I|].
    assert (E : E_log t v = E_log (the_target l) (verbosity l s)).
    { pose proof (daemon_events s) as D. pose proof (serve_events s (s_atfork s)) as S1.
      destruct (has_f l).
      - destruct (s_atfork s <? 0); [destruct I as [I|[]]; congruence|]. destruct (serve s (s_atfork s)) as [e x]. destruct S1 as (S1 & _).
        destruct I as [I|I]; [congruence|]. exfalso. exact (S1 _ _ I).
      - destruct (become_daemon s) as [e [x|]].
        + destruct D as (D & _). destruct I as [I|I]; [congruence|]. exfalso. exact (D _ _ I).
        + destruct D as (D & _). destruct (s_atfork s <? 0); [destruct I as [I|I]; [congruence | exfalso; exact (D _ _ I)]|].
          destruct (serve s (s_atfork s)) as [e' x]. destruct S1 as (S1 & _). destruct I as [I|I]; [congruence|]. apply in_app_or in I as [I|I]; exfalso; [exact (D _ _ I) | exact (S1 _ _ I)]. }
    injection E as -> ->. split; [reflexivity|]. unfold the_target. rewrite <- has_j_in, <- has_f_in. destruct (has_j l), (has_f l); sp; split; try congruence; try (intros [X Y]; congruence); try (intros; split; congruence).
  - exfalso. clear -I P. assert (X : exists pre x post, l = pre ++ x :: post /\ forallb plain pre = true /\ plain x = false).
    { clear I. induction l as [|o l IH]; [discriminate|]. cbn [forallb] in P. destruct (plain o) eqn:E.
      - destruct (IH P) as (pre & x & post & -> & A & B). exists (o :: pre), x, post. cbn. rewrite E. auto.
      - exists [], o, l. auto. }
    destruct X as (pre & x & post & -> & A & B). rewrite main_ends in I by assumption. destruct x; try discriminate; cbn in I; destruct I as [I|[]]; discriminate.
Qed.
Lemma not_plain l : forallb plain l = false -> exists pre x post, l = pre ++ x :: post /\ forallb plain pre = true /\ plain x = false.
Proof.
  induction l as [|o l IH]; intros P; [discriminate|]. cbn [forallb] in P. destruct (plain o) eqn:E.
  - destruct (IH P) as (pre & x & post & -> & A & B). exists (o :: pre), x, post. cbn. rewrite E. auto.
  - exists [], o, l. auto.
Qed.
Lemma top_once l s : count event_made (fst (main l s)) = count event_destroyed (fst (main l s)).
Proof.
  destruct (forallb plain l) eqn:P.
  - rewrite main_plain by exact P. destruct (s_atexit s <? 0); [reflexivity|]. destruct (negb (s_log s)); [reflexivity|].
    pose proof (daemon_events s) as D. pose proof (serve_events s (s_atfork s)) as S1. destruct (has_f l).
    + destruct (s_atfork s <? 0); [reflexivity|]. destruct (serve s (s_atfork s)) as [e x]. cbn [fst app]. rewrite !count_log by reflexivity. apply S1.
    + destruct (become_daemon s) as [e [x|]].
      * cbn [fst]. rewrite !count_log by reflexivity. destruct D as (_ & -> & -> & _). reflexivity.
      * destruct D as (_ & D1 & D2 & _). destruct (s_atfork s <? 0); [cbn [fst]; rewrite !count_log by reflexivity; congruence|].
        destruct (serve s (s_atfork s)) as [e' x]. cbn [fst]. rewrite !count_log by reflexivity. rewrite !count_app, D1, D2. f_equal. apply S1.
  - apply not_plain in P as (pre & x & post & -> & A & B). rewrite main_ends by assumption. destruct x; try discriminate; reflexivity.
Qed.
Lemma exit_status l s : In E_loop (fst (main l s)) -> (snd (main l s) = 0 <-> ended_well s).
Proof.
  destruct (forallb plain l) eqn:P.
  - rewrite main_plain by exact P. destruct (s_atexit s <? 0); [intros []|]. destruct (negb (s_log s)); [intros []|].
    pose proof (daemon_events s) as D. pose proof (serve_events s (s_atfork s)) as S1. destruct (has_f l).
    + destruct (s_atfork s <? 0); [intros [X|[]]; discriminate|]. destruct (serve s (s_atfork s)) as [e x]. destruct S1 as (_ & _ & _ & S1 & S2 & _).
      cbn [fst snd app]. intros [X|X]; [discriminate|]. apply S2. now apply S1.
    + destruct (become_daemon s) as [e [x|]].
      * destruct D as (_ & _ & _ & D & _). cbn [fst]. intros [X|X]; [discriminate | tauto].
      * destruct D as (_ & _ & _ & D & _). destruct (s_atfork s <? 0); [cbn [fst]; intros [X|X]; [discriminate | tauto]|].
        destruct (serve s (s_atfork s)) as [e' x]. destruct S1 as (_ & _ & _ & S1 & S2 & _). cbn [fst snd]. intros [X|X]; [discriminate|].
        apply in_app_or in X as [X|X]; [tauto|]. apply S2. now apply S1.
  - apply not_plain in P as (pre & x & post & -> & A & B). rewrite main_ends by assumption. destruct x; try discriminate; intros [X|[]]; discriminate.
Qed.
Lemma success_means l s : s_create s = true -> snd (main l s) = 0 ->
  (In E_loop (fst (main l s)) /\ ended_well s) \/ In E_forked (fst (main l s)) \/ In (E_help false) (fst (main l s)) \/ In E_version (fst (main l s)).
Proof.
  intros C Z0. destruct (forallb plain l) eqn:P.
  - pose proof (exit_status l s) as ES. revert Z0 ES. rewrite main_plain by exact P. destruct (s_atexit s <? 0); [discriminate|]. destruct (negb (s_log s)); [discriminate|].
    pose proof (daemon_events s) as D. pose proof (serve_events s (s_atfork s)) as S1. destruct (has_f l).
    + destruct (s_atfork s <? 0); [discriminate|]. destruct (serve s (s_atfork s)) as [e x]. destruct S1 as (_ & _ & _ & S1 & S2 & _).
      cbn [fst snd app]. intros Z0 _. left. split; [right; now apply S1 | now apply S2].
    + destruct (become_daemon s) as [e [x|]].
      * destruct D as (_ & _ & _ & _ & D). cbn [fst snd]. intros Z0 _. right. left. right. now apply D.
      * destruct (s_atfork s <? 0); [discriminate|]. destruct (serve s (s_atfork s)) as [e' x]. destruct S1 as (_ & _ & _ & S1 & S2 & _).
        cbn [fst snd]. intros Z0 _. left. split; [right; apply in_or_app; right; now apply S1 | now apply S2].
  - apply not_plain in P as (pre & x & post & -> & A & B). rewrite main_ends in * by assumption. destruct x; try discriminate; cbn; auto.
Qed.
Lemma create_fails l s : forallb plain l = true -> goes_on l s -> 0 <= s_atexit s -> s_log s = true -> 0 <= s_atfork s -> s_create s = false ->
  snd (main l s) = 0 /\ ~ In E_loop (fst (main l s)) /\ count event_made (fst (main l s)) = 0%nat.
Proof.
  intros P G A L F C. rewrite main_plain by exact P. replace (s_atexit s <? 0) with false by lia. rewrite L. cbn [negb].
  pose proof (daemon_events s) as D. pose proof (serve_events s (s_atfork s)) as S1.
  replace (s_atfork s <? 0) with false by lia.
  destruct (serve s (s_atfork s)) as [e' x]. destruct S1 as (_ & _ & _ & _ & _ & S1). destruct (S1 C) as (-> & ->).
  assert (ST : status (s_atfork s) = 0) by (unfold status; replace (s_atfork s <? 0) with false by lia; reflexivity). rewrite ST.
  destruct (has_f l) eqn:HF.
  - cbn. sp; try reflexivity. intros [X|[]]; discriminate.
  - destruct G as [G|(G1 & G2)]; [apply has_f_in in G; congruence|]. pose proof (become_goes s G1 G2) as B.
    destruct (become_daemon s) as [e [y|]]; [discriminate|]. destruct D as (_ & D1 & _ & D2 & _). cbn [fst snd]. rewrite app_nil_r. sp.
    + reflexivity.
    + intros [X|X]; [discriminate | tauto].
    + rewrite count_log by reflexivity. exact D1.
Qed.
Lemma session_fails l s : forallb plain l = true -> ~ In O_foreground l -> 0 <= s_atexit s -> s_log s = true -> becomes_daemon s -> s_setsid s = -1 ->
  In (E_session false) (fst (main l s)) /\ In E_daemon (fst (main l s)).
Proof.
  intros P NF A L G S1. rewrite main_plain by exact P. replace (s_atexit s <? 0) with false by lia. rewrite L. cbn [negb].
  destruct (has_f l) eqn:HF; [apply has_f_in in HF; tauto|].
  pose proof (daemon_events s) as D. pose proof (become_goes s G ltac:(lia)) as B. destruct (become_daemon s) as [e [y|]]; [discriminate|].
  destruct D as (_ & _ & _ & _ & _ & _ & D1 & D2). rewrite S1 in D2. change (0 <? -1) with false in D2.
  destruct (s_atfork s <? 0); [cbn [fst]; split; now right|]. destruct (serve s (s_atfork s)). cbn [fst]. split; right; apply in_or_app; now left.
Qed.
(* signals *)
Lemma signals_stop bridge l w : w_ending w = true -> fold_left (on_signal bridge) l w = w.
Proof. revert w. induction l as [|n l IH]; intros w E; [reflexivity|]. cbn [fold_left]. unfold on_signal at 2. rewrite E. cbn [orb]. now apply IH. Qed.
Lemma signals_are bridge l : forall w, w_ending w = false ->
  fold_left (on_signal bridge) l w = Loop (existsb ends l) (w_dumps w + if bridge then count (N.eqb 10) (before_end l) else 0%nat).
Proof.
  induction l as [|n l IH]; intros w E; cbn [fold_left existsb before_end].
  - destruct w; cbn in *. subst. destruct bridge; cbn; rewrite Nat.add_0_r; reflexivity.
  - unfold on_signal at 2. rewrite E. cbn [orb]. unfold ends at 1 3, handled, SIGTERM, SIGINT, SIGPIPE, SIGHUP, SIGUSR1. cbn [existsb].
    destruct (n =? 15)%N eqn:E1; [cbn [orb negb]; rewrite signals_stop by reflexivity; cbn; destruct bridge; cbn; now rewrite Nat.add_0_r|].
    destruct (n =? 2)%N eqn:E2; [cbn [orb negb]; rewrite signals_stop by reflexivity; cbn; destruct bridge; cbn; now rewrite Nat.add_0_r|].
    destruct (n =? 13)%N eqn:E3; [apply N.eqb_eq in E3; subst n; cbn [orb negb]; rewrite IH by exact E; reflexivity|].
    destruct (n =? 1)%N eqn:E4; [apply N.eqb_eq in E4; subst n; cbn [orb negb]; rewrite IH by exact E; reflexivity|].
    destruct (n =? 10)%N eqn:E5; cbn [orb negb].
    + apply N.eqb_eq in E5. subst n. rewrite IH by reflexivity. cbn [w_dumps]. unfold count. cbn [filter]. change (10 =? 10)%N with true. cbn [length].
      destruct bridge; f_equal; lia.
    + rewrite IH by exact E. unfold count. cbn [filter]. rewrite N.eqb_sym, E5. reflexivity.
Qed.
