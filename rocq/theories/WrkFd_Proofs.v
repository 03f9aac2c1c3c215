From Verif Require Import Base Wrk_Model WrkFd_Model WrkFd_Spec.
From Coq Require Import Permutation.
Local Open Scope nat_scope.

Lemma at_nil j : fd_at [] j = None. Proof. destruct j; reflexivity. Qed.
Lemma at_set t i v j : fd_at (fd_set t i v) j = if i =? j then v else fd_at t j.
Proof.
  revert t j. induction i as [|i IH]; intros [|x t] [|j]; cbn [fd_set]; try reflexivity.
  - cbn. destruct j; reflexivity.
  - change (fd_at (fd_set [] i v) j = if i =? j then v else None). rewrite IH, at_nil. reflexivity.
  - exact (IH t j).
Qed.
Lemma at_lowest t : fd_at t (lowest t) = None.
Proof. induction t as [|[d|] t IH]; [reflexivity|exact IH|reflexivity]. Qed.
Lemma low_used t i : i < lowest t -> fd_at t i <> None.
Proof. revert i. induction t as [|[d|] t IH]; intros i H; cbn [lowest] in H; try lia. destruct i as [|i]; [discriminate|]. apply IH. lia. Qed.
Lemma at_exec t j : fd_at (sys_exec t) j = match fd_at t j with Some d => if d_cloexec d then None else Some d | None => None end.
Proof.
  revert j. induction t as [|x t IH]; intros [|j]; try reflexivity; [cbn; destruct x as [d|]; reflexivity|]. exact (IH j).
Qed.
Definition is_fd (l : list Z) (j : nat) : bool := existsb (fun c => (c =? Z.of_nat j)%Z) l.
Lemma is_fd_iff l j : is_fd l j = true <-> In (Z.of_nat j) l.
Proof. unfold is_fd. rewrite existsb_exists. split; [intros (x & H & E); apply Z.eqb_eq in E; subst x; exact H|intros H; exists (Z.of_nat j); split; [exact H|apply Z.eqb_refl]]. Qed.
Lemma is_fd_not l j : ~ In (Z.of_nat j) l -> is_fd l j = false.
Proof. intros H. destruct (is_fd l j) eqn:E; [apply is_fd_iff in E; contradiction|reflexivity]. Qed.
Lemma at_close t fd j : fd_at (sys_close t fd) j = if (fd =? Z.of_nat j)%Z then None else fd_at t j.
Proof.
  unfold sys_close. destruct (fd <? 0)%Z eqn:E; [destruct (fd =? Z.of_nat j)%Z eqn:F; [lia|reflexivity]|]. rewrite at_set. destruct (Z.to_nat fd =? j) eqn:G, (fd =? Z.of_nat j)%Z eqn:F; try reflexivity; lia.
Qed.
Lemma at_pairs l : forall t j, fd_at (close_pairs t l) j = if is_fd (map fst l ++ map snd l) j then None else fd_at t j.
Proof.
  induction l as [|(a, b) l IH]; intros t j; [reflexivity|]. cbn [close_pairs map fst snd]. rewrite IH, !at_close. unfold is_fd. rewrite !existsb_app. cbn [existsb].
  destruct (existsb _ (map fst l)), (existsb _ (map snd l)), (a =? Z.of_nat j)%Z, (b =? Z.of_nat j)%Z; reflexivity.
Qed.
Lemma at_destroy ws : forall fds t j, length fds = length ws -> (forall i w fd, nth_error ws i = Some w -> nth_error fds i = Some fd -> w_type w = WIRE_NONE -> fd = (-1)%Z) ->
  fd_at (destroy_channels t (combine (map w_type ws) fds)) j = if is_fd fds j then None else fd_at t j.
Proof.
  induction ws as [|w ws IH]; intros [|fd fds] t j L H; try discriminate; [reflexivity|]. cbn [map combine destroy_channels]. rewrite IH; [|cbn in L; lia|intros i; exact (H (S i))].
  unfold is_fd. cbn [existsb]. destruct (existsb _ fds); [destruct (fd =? _)%Z; reflexivity|]. rewrite orb_false_r.
  assert (X : fd_at (if (0 <=? fd)%Z then sys_close t fd else t) j = if (fd =? Z.of_nat j)%Z then None else fd_at t j).
  { destruct (0 <=? fd)%Z eqn:E; [apply at_close|]. destruct (fd =? Z.of_nat j)%Z eqn:F; [lia|reflexivity]. }
  destruct (w_type w) eqn:W; try exact X. rewrite (H 0 w fd eq_refl eq_refl W). destruct (-1 =? Z.of_nat j)%Z eqn:F; [lia|reflexivity].
Qed.

(* Channels that were made one after the other *)
Inductive made : fdtab -> nat -> list wire -> list (Z * Z) -> fdtab -> Prop :=
| M_nil : forall t k, made t k [] [] t
| M_none : forall t k w ws l t', w_type w = WIRE_NONE -> made t (S k) ws l t' -> made t k (w :: ws) (((-1)%Z, (-1)%Z) :: l) t'
| M_pair : forall t k w ws a b l t1 t', w_type w <> WIRE_NONE -> a <> b -> fd_at t a = None -> fd_at t b = None ->
    (forall j, fd_at t1 j = if a =? j then proxy_end (w_type w) k else if b =? j then worker_end (w_type w) k else fd_at t j) ->
    made t1 (S k) ws l t' -> made t k (w :: ws) ((Z.of_nat a, Z.of_nat b) :: l) t'.
Lemma two t x (a := lowest t) (b := lowest (fd_set t a (Some x))) : a <> b /\ fd_at t a = None /\ fd_at t b = None.
Proof.
  pose proof (at_lowest t) as A. pose proof (at_lowest (fd_set t a (Some x))) as C. fold b in C. rewrite at_set in C. fold a in A. destruct (Nat.eqb_spec a b) as [E|N]; [discriminate C|]. auto.
Qed.
Lemma create_one t k ok w : match create_channel (t, k) ok w with
  | (p', None) => p' = (t, k) /\ ok = false
  | ((t1, k1), Some (a, b)) => k1 = S k /\ forall ws l t', made t1 (S k) ws l t' -> made t k (w :: ws) ((a, b) :: l) t'
  end.
Proof.
  unfold create_channel, sys_pipe, sys_socketpair, fd_open. destruct (w_type w) eqn:W.
  - split; [reflexivity|]. intros. apply M_none; assumption.
  - destruct ok; [|split; reflexivity]. cbn. split; [reflexivity|]. intros ws l t' M. destruct (two t (Desc (PipeRead k) false)) as (N & A & C).
    eapply M_pair; [congruence|apply not_eq_sym; exact N|exact C|exact A| |exact M]. intros j. rewrite !at_set, W. cbn [proxy_end worker_end]. reflexivity.
  - destruct ok; [|split; reflexivity]. cbn. split; [reflexivity|]. intros ws l t' M. destruct (two t (Desc (PipeRead k) false)) as (N & A & C).
    eapply M_pair; [congruence|exact N|exact A|exact C| |exact M]. intros j. rewrite !at_set, W. cbn [proxy_end worker_end].
    repeat match goal with |- context [?a =? j] => destruct (Nat.eqb_spec a j) end; try reflexivity. congruence.
  - destruct ok; [|split; reflexivity]. cbn. split; [reflexivity|]. intros ws l t' M. destruct (two t (Desc (Sock k true) true)) as (N & A & C).
    eapply M_pair; [congruence|exact N|exact A|exact C| |exact M]. intros j. rewrite !at_set, W. cbn [proxy_end worker_end].
    repeat match goal with |- context [?a =? j] => destruct (Nat.eqb_spec a j) end; try reflexivity. congruence.
Qed.
Definition fds_of (l : list (Z * Z)) : list Z := map fst l ++ map snd l.
Lemma fds_cons a b l x : In x (fds_of ((a, b) :: l)) <-> a = x \/ b = x \/ In x (fds_of l).
Proof. unfold fds_of. cbn [map fst snd app In]. rewrite !in_app_iff. cbn [In]. tauto. Qed.
Lemma made_keeps t k ws l t' : made t k ws l t' -> forall j, (fd_at t j <> None -> ~ In (Z.of_nat j) (fds_of l)) /\ (~ In (Z.of_nat j) (fds_of l) -> fd_at t' j = fd_at t j).
Proof.
  induction 1 as [t k|t k w ws l t' W M IH|t k w ws a b l t1 t' W N A C T M IH]; intros j.
  - split; [intros _ []|reflexivity].
  - destruct (IH j) as (I1 & I2). split; intros H.
    + rewrite fds_cons. intros [X|[X|X]]; [lia|lia|exact (I1 H X)].
    + apply I2. intros X. apply H. rewrite fds_cons. auto.
  - destruct (IH j) as (I1 & I2). split; intros H.
    + rewrite fds_cons. assert (a <> j) by (intros ->; contradiction). assert (b <> j) by (intros ->; contradiction). intros [X|[X|X]]; [lia|lia|]. apply I1; [|exact X]. rewrite T.
      destruct (Nat.eqb_spec a j); [contradiction|]. destruct (Nat.eqb_spec b j); [contradiction|]. exact H.
    + rewrite fds_cons in H. rewrite I2 by tauto. rewrite T. destruct (Nat.eqb_spec a j) as [->|_]; [tauto|]. destruct (Nat.eqb_spec b j) as [->|_]; [tauto|]. reflexivity.
Qed.
Lemma end_not_none w k : w <> WIRE_NONE -> proxy_end w k <> None /\ worker_end w k <> None.
Proof. destruct w; intros H; split; try discriminate; contradiction. Qed.
Lemma made_fresh t k ws l t' : made t k ws l t' -> unused t (fds_of l).
Proof. intros M j H. destruct (fd_at t j) eqn:E; [|reflexivity]. destruct (proj1 (made_keeps _ _ _ _ _ M j)); [congruence|exact H]. Qed.
Lemma made_length t k ws l t' : made t k ws l t' -> length l = length ws.
Proof. induction 1; cbn; congruence. Qed.
Lemma made_neg t k ws l t' : made t k ws l t' -> forall i w a b, nth_error ws i = Some w -> nth_error l i = Some (a, b) -> w_type w = WIRE_NONE -> a = (-1)%Z /\ b = (-1)%Z.
Proof.
  induction 1 as [t k|t k w ws l t' W M IH|t k w ws a b l t1 t' W N A C T M IH]; intros [|i] w0 a0 b0 Hw Hl Z; try discriminate; cbn in Hw, Hl.
  - injection Hl as <- <-. auto.
  - exact (IH i w0 a0 b0 Hw Hl Z).
  - congruence.
  - exact (IH i w0 a0 b0 Hw Hl Z).
Qed.
Lemma made_ends t k ws l t' : made t k ws l t' -> forall i w a b, nth_error ws i = Some w -> nth_error l i = Some (a, b) -> w_type w <> WIRE_NONE ->
  (0 <= a)%Z /\ (0 <= b)%Z /\ fd_at t' (Z.to_nat a) = proxy_end (w_type w) (k + i) /\ fd_at t' (Z.to_nat b) = worker_end (w_type w) (k + i).
Proof.
  induction 1 as [t k|t k w ws l t' W M IH|t k w ws a b l t1 t' W N A C T M IH]; intros [|i] w0 a0 b0 Hw Hl Z; try discriminate; cbn in Hw, Hl.
  - congruence.
  - replace (k + S i) with (S k + i) by lia. exact (IH i w0 a0 b0 Hw Hl Z).
  - injection Hw as ->. injection Hl as <- <-. rewrite !Nat2Z.id, Nat.add_0_r. split; [lia|]. split; [lia|].
    assert (Ka : fd_at t1 a = proxy_end (w_type w0) k) by (rewrite T, Nat.eqb_refl; reflexivity).
    assert (Kb : fd_at t1 b = worker_end (w_type w0) k) by (rewrite T, Nat.eqb_refl; destruct (Nat.eqb_spec a b); [contradiction|reflexivity]).
    destruct (end_not_none (w_type w0) k Z) as (E1 & E2). split.
    + rewrite <- Ka. apply (made_keeps _ _ _ _ _ M a). apply (made_keeps _ _ _ _ _ M a). congruence.
    + rewrite <- Kb. apply (made_keeps _ _ _ _ _ M b). apply (made_keeps _ _ _ _ _ M b). congruence.
  - replace (k + S i) with (S k + i) by lia. exact (IH i w0 a0 b0 Hw Hl Z).
Qed.
Lemma distinct_cons_neg l : distinct l -> distinct ((-1)%Z :: l). Proof. exact (fun H => H). Qed.
Lemma distinct_cons a l : ~ In (Z.of_nat a) l -> distinct l -> distinct (Z.of_nat a :: l).
Proof. intros H D. unfold distinct. cbn [filter]. replace (0 <=? Z.of_nat a)%Z with true by lia. constructor; [|exact D]. rewrite filter_In. tauto. Qed.
Lemma distinct_mid x l1 l2 : distinct (x :: l1 ++ l2) -> distinct (l1 ++ x :: l2).
Proof.
  unfold distinct. cbn [filter]. rewrite !filter_app. cbn [filter]. destruct (0 <=? x)%Z; [|exact (fun H => H)]. intros H. inversion_clear H as [|? ? N D]. apply NoDup_Add with (a := x) (l := filter (fun fd => (0 <=? fd)%Z) l1 ++ filter (fun fd => (0 <=? fd)%Z) l2); [apply Add_app|]. auto.
Qed.
Lemma made_distinct t k ws l t' : made t k ws l t' -> distinct (fds_of l).
Proof.
  induction 1 as [t k|t k w ws l t' W M IH|t k w ws a b l t1 t' W N A C T M IH].
  - constructor.
  - unfold fds_of in *. cbn [map fst snd app]. apply distinct_cons_neg. apply distinct_mid. apply distinct_cons_neg. exact IH.
  - destruct (end_not_none (w_type w) k W) as (E1 & E2). unfold fds_of. cbn [map fst snd app].
    assert (Na : ~ In (Z.of_nat a) (fds_of l)) by (apply (made_keeps _ _ _ _ _ M a); rewrite T, Nat.eqb_refl; exact E1).
    assert (Nb : ~ In (Z.of_nat b) (fds_of l)) by (apply (made_keeps _ _ _ _ _ M b); rewrite T, Nat.eqb_refl; destruct (Nat.eqb_spec a b); [contradiction|exact E2]).
    apply distinct_cons.
    + rewrite in_app_iff. cbn [In]. unfold fds_of in Na. rewrite in_app_iff in Na. intros [X|[X|X]]; [tauto|lia|tauto].
    + apply distinct_mid. apply distinct_cons; [exact Nb|exact IH].
Qed.
Lemma create_loop_lemma ws : forall t k oks done, match create_loop (t, k) oks ws done with
  | (p', Some r) => exists l t', made t k ws l t' /\ r = rev done ++ l /\ p' = (t', k + length ws)
  | (p', None) => (exists ws1 l t1, made t k ws1 l t1 /\ fst p' = close_pairs t1 (rev l ++ done)) /\ ~ Forall (fun b => b = true) oks
  end.
Proof.
  induction ws as [|w ws IH]; intros t k oks done; cbn [create_loop].
  - exists [], t. split; [constructor|]. rewrite app_nil_r. split; [reflexivity|]. cbn. f_equal. lia.
  - pose proof (create_one t k (hd true oks) w) as C. destruct (create_channel (t, k) (hd true oks) w) as ((t1, k1), [(a, b)|]).
    + destruct C as (-> & C). specialize (IH t1 (S k) (tl oks) ((a, b) :: done)). destruct (create_loop (t1, S k) (tl oks) ws ((a, b) :: done)) as (p', [r|]).
      * destruct IH as (l & t' & M & -> & ->). exists ((a, b) :: l), t'. split; [exact (C _ _ _ M)|]. cbn [rev length]. rewrite <- app_assoc. split; [reflexivity|]. f_equal. lia.
      * destruct IH as ((ws1 & l & t2 & M & E) & F). split; [exists (w :: ws1), ((a, b) :: l), t2; split; [exact (C _ _ _ M)|]; cbn [rev]; rewrite <- app_assoc; exact E|].
        intros G. apply F. destruct oks; [constructor|]. inversion_clear G. assumption.
    + destruct C as (E & F). injection E as -> ->. split; [exists [], [], t; split; [constructor|reflexivity]|]. intros G. destruct oks; [discriminate F|]. inversion_clear G. cbn in F. congruence.
Qed.
Lemma rev_fds (l : list (Z * Z)) : forall x, In x (fds_of (rev l)) <-> In x (fds_of l).
Proof. intros x. unfold fds_of. rewrite !map_rev, !in_app_iff. rewrite <- !in_rev. tauto. Qed.
Lemma create_channels_lemma t k mem oks ws : match create_channels (t, k) mem oks ws with
  | (p', Some l) => exists t', made t k ws l t' /\ p' = (t', k + length ws)
  | (p', None) => same_fds t (fst p') /\ (mem = true -> ~ Forall (fun b => b = true) oks)
  end.
Proof.
  unfold create_channels. destruct mem; [|split; [intros j; reflexivity|discriminate]]. pose proof (create_loop_lemma ws t k oks []) as H. destruct (create_loop (t, k) oks ws []) as (p', [r|]).
  - destruct H as (l & t' & M & -> & ->). exists t'. split; [exact M|reflexivity].
  - destruct H as ((ws1 & l & t1 & M & E) & F). split; [|intros _; exact F]. intros j. rewrite E, app_nil_r, at_pairs. fold (fds_of (rev l)). destruct (is_fd (fds_of (rev l)) j) eqn:G.
    + apply is_fd_iff in G. rewrite rev_fds in G. symmetry. exact (made_fresh _ _ _ _ _ M j G).
    + apply (made_keeps _ _ _ _ _ M j). rewrite <- rev_fds, <- is_fd_iff. congruence.
Qed.
(* The directory *)
Lemma close_others_lemma keep cl : forall l t, match close_others t keep cl l with
  | (t', true) => forall j, fd_at t' j = if negb (keep j) && existsb (Nat.eqb j) l then None else fd_at t j
  | (t', false) => exists j, cl j = false
  end.
Proof.
  induction l as [|fd l IH]; intros t; cbn [close_others].
  - intros j. cbn [existsb]. rewrite andb_false_r. reflexivity.
  - destruct (fd_at t fd) as [d|] eqn:D.
    + destruct (keep fd) eqn:K.
      * specialize (IH t). destruct (close_others t keep cl l) as (t', [|]); [|exact IH]. intros j. rewrite IH. cbn [existsb]. destruct (Nat.eqb_spec j fd) as [->|]; [rewrite K; reflexivity|reflexivity].
      * destruct (cl fd) eqn:C; [|exists fd; exact C]. specialize (IH (fd_set t fd None)). destruct (close_others (fd_set t fd None) keep cl l) as (t', [|]); [|exact IH]. intros j. rewrite IH, at_set. cbn [existsb].
        destruct (Nat.eqb_spec j fd) as [->|N]; [rewrite K, Nat.eqb_refl; cbn; destruct (existsb _ l); reflexivity|]. destruct (Nat.eqb_spec fd j); [congruence|reflexivity].
    + specialize (IH t). destruct (close_others t keep cl l) as (t', [|]); [|exact IH]. intros j. rewrite IH. cbn [existsb]. destruct (Nat.eqb_spec j fd) as [->|]; [rewrite D; destruct (negb _ && _), (negb _ && _); reflexivity|reflexivity].
Qed.
Lemma at_beyond t j : length t <= j -> fd_at t j = None. Proof. intros H. unfold fd_at. apply nth_overflow. exact H. Qed.
Lemma close_non_lemma t dir cl fds : unused t [] -> match close_non_channel_fds t dir cl fds with
  | (t', true) => forall j, fd_at t' j = if is_fd fds j then fd_at t j else None
  | (t', false) => dir = false \/ exists j, cl j = false
  end.
Proof.
  intros _. unfold close_non_channel_fds. destruct dir; [|left; reflexivity]. unfold fd_open. set (d := lowest t). set (td := fd_set t d (Some (Desc (File 0) true))).
  pose proof (close_others_lemma (fun fd => (fd =? d) || existsb (fun c => (c =? Z.of_nat fd)%Z) fds) cl (seq 0 (length td)) td) as H.
  destruct (close_others td _ cl (seq 0 (length td))) as (t', [|]); [|right; exact H]. intros j. rewrite at_set, H. fold (is_fd fds j). unfold td. rewrite at_set. fold td.
  assert (Ld : fd_at t d = None) by apply at_lowest.
  destruct (Nat.eqb_spec d j) as [<-|N]; [rewrite Ld; destruct (is_fd fds d); reflexivity|]. destruct (Nat.eqb_spec j d); [congruence|]. cbn [orb].
  destruct (is_fd fds j); [reflexivity|]. cbn [negb andb]. destruct (existsb (Nat.eqb j) (seq 0 (length td))) eqn:E; [reflexivity|].
  destruct (le_lt_dec (length td) j) as [L|L].
  - pose proof (at_beyond td j L) as B. unfold td in B. rewrite at_set in B. destruct (Nat.eqb_spec d j); [contradiction|exact B].
  - assert (X : existsb (Nat.eqb j) (seq 0 (length td)) = true) by (apply existsb_exists; exists j; split; [apply in_seq; lia|apply Nat.eqb_refl]). congruence.
Qed.

(* New workers *)
Lemma holds_of t k ws l t' (side : bool) t2 : made t k ws l t' -> (forall j, In (Z.of_nat j) (map (if side then fst else snd) l) -> fd_at t2 j = fd_at t' j) ->
  holds t2 (if side then proxy_end else worker_end) k ws (map (if side then fst else snd) l).
Proof.
  intros M H. split; [rewrite map_length; exact (made_length _ _ _ _ _ M)|]. intros i w fd Hw Hf. rewrite nth_error_map in Hf. destruct (nth_error l i) as [(a, b)|] eqn:E; [|discriminate Hf]. cbn in Hf. injection Hf as <-.
  destruct (w_type w) eqn:W; [destruct (made_neg _ _ _ _ _ M i w a b Hw E W) as (-> & ->); destruct side; reflexivity|..];
    (destruct (made_ends _ _ _ _ _ M i w a b Hw E ltac:(congruence)) as (A & C & X & Y); rewrite W in X, Y;
     assert (In (Z.of_nat (Z.to_nat ((if side then fst else snd) (a, b)))) (map (if side then fst else snd) l)) as I by (apply nth_error_In in E; rewrite Z2Nat.id by (destruct side; cbn; lia); apply in_map; exact E);
     specialize (H _ I); destruct side; cbn [fst snd] in *; cbn [proxy_end worker_end] in *; (split; [assumption|congruence])).
Qed.
Lemma distinct_app l1 l2 : distinct (l1 ++ l2) -> distinct l1 /\ distinct l2 /\ forall j, In (Z.of_nat j) l1 -> ~ In (Z.of_nat j) l2.
Proof.
  unfold distinct. rewrite filter_app. intros H. induction l1 as [|x l1 IH]; cbn [filter app] in *.
  - split; [constructor|]. split; [exact H|]. intros j [].
  - destruct (0 <=? x)%Z eqn:E.
    + inversion_clear H as [|? ? N D]. destruct (IH D) as (I1 & I2 & I3). split; [constructor; [intros X; apply N; apply in_or_app; left; exact X|exact I1]|]. split; [exact I2|].
      intros j [->|X]; [|exact (I3 j X)]. intros Y. apply N. apply in_or_app. right. apply filter_In. split; [exact Y|exact E].
    + destruct (IH H) as (I1 & I2 & I3). split; [exact I1|]. split; [exact I2|]. intros j [->|X]; [lia|exact (I3 j X)].
Qed.
Lemma map_neg t k ws l t' (side : bool) : made t k ws l t' -> forall i w fd, nth_error ws i = Some w -> nth_error (map (if side then fst else snd) l) i = Some fd -> w_type w = WIRE_NONE -> fd = (-1)%Z.
Proof.
  intros M i w fd Hw Hf W. rewrite nth_error_map in Hf. destruct (nth_error l i) as [(a, b)|] eqn:E; [|discriminate Hf]. cbn in Hf. injection Hf as <-. destruct (made_neg _ _ _ _ _ M i w a b Hw E W) as (-> & ->). destruct side; reflexivity.
Qed.
Lemma new_worker_lemma t k a ty ws t' k' r c : get_new_worker (t, k) a ty ws = (t', k', r, c) ->
  match r with
  | None => same_fds t t'
  | Some mine => holds t' proxy_end k ws mine /\ same_but mine t t' /\ unused t mine /\ distinct mine
  end
  /\ match c with
     | CHILD tw theirs => holds tw worker_end k ws theirs /\ unused t theirs /\ distinct theirs /\ (forall mine, r = Some mine -> forall j, In (Z.of_nat j) mine -> ~ In (Z.of_nat j) theirs)
         /\ match ty with INTERNAL => same_but theirs t tw | EXTERNAL => only theirs tw end
     | _ => True
     end
  /\ (all_well a -> r <> None /\ exists tw theirs, c = CHILD tw theirs).
Proof.
  unfold get_new_worker. pose proof (create_channels_lemma t k (an_mem a) (an_calls a) ws) as H. destruct (create_channels (t, k) (an_mem a) (an_calls a) ws) as (p1, [l|]).
  2:{ intros E. destruct H as (S & F). destruct p1 as (t1, k1). injection E as <- _ <- <-. split; [exact S|]. split; [exact I|]. intros (W1 & W2 & _). destruct (F W1 W2). }
  destruct H as (t1 & M & ->).
  assert (Dm : forall t0 j, fd_at (destroy_channels t0 (combine (map w_type ws) (map fst l))) j = if is_fd (map fst l) j then None else fd_at t0 j)
    by (intros; apply at_destroy; [rewrite map_length; exact (made_length _ _ _ _ _ M)|exact (map_neg _ _ _ _ _ true M)]).
  assert (Dt : forall t0 j, fd_at (destroy_channels t0 (combine (map w_type ws) (map snd l))) j = if is_fd (map snd l) j then None else fd_at t0 j)
    by (intros; apply at_destroy; [rewrite map_length; exact (made_length _ _ _ _ _ M)|exact (map_neg _ _ _ _ _ false M)]).
  pose proof (made_fresh _ _ _ _ _ M) as Fr. pose proof (made_distinct _ _ _ _ _ M) as Di. apply distinct_app in Di. destruct Di as (D1 & D2 & D3).
  assert (Kp : forall j, ~ In (Z.of_nat j) (map fst l) -> ~ In (Z.of_nat j) (map snd l) -> fd_at t1 j = fd_at t j) by (intros j N1 N2; apply (made_keeps _ _ _ _ _ M j); unfold fds_of; rewrite in_app_iff; tauto).
  assert (Both : forall f g, (forall t0 j, fd_at (f t0) j = if is_fd (map fst l) j then None else fd_at t0 j) -> (forall t0 j, fd_at (g t0) j = if is_fd (map snd l) j then None else fd_at t0 j) -> same_fds t (f (g t1)) /\ same_fds t (g (f t1))).
  { assert (X : forall j, (if is_fd (map fst l) j then None else if is_fd (map snd l) j then None else fd_at t1 j) = fd_at t j).
    { intros j. destruct (is_fd (map fst l) j) eqn:E1; [apply is_fd_iff in E1; symmetry; apply Fr; unfold fds_of; apply in_or_app; left; exact E1|].
      destruct (is_fd (map snd l) j) eqn:E2; [apply is_fd_iff in E2; symmetry; apply Fr; unfold fds_of; apply in_or_app; right; exact E2|]. apply Kp; rewrite <- is_fd_iff; congruence. }
    intros f g F G. split; intros j.
    - rewrite F, G. exact (X j).
    - rewrite G, F, <- (X j). destruct (is_fd (map fst l) j), (is_fd (map snd l) j); reflexivity. }
  set (cm := fun t0 => destroy_channels t0 (combine (map w_type ws) (map fst l))) in *. set (ct := fun t0 => destroy_channels t0 (combine (map w_type ws) (map snd l))) in *.
  destruct (Both cm ct Dm Dt) as (B1 & B2).
  change (destroy_channels (destroy_channels t1 (combine (map w_type ws) (map fst l))) (combine (map w_type ws) (map snd l))) with (ct (cm t1)).
  change (destroy_channels t1 (combine (map w_type ws) (map snd l))) with (ct t1). change (destroy_channels t1 (combine (map w_type ws) (map fst l))) with (cm t1).
  change (destroy_channels (ct t1) (combine (map w_type ws) (map fst l))) with (cm (ct t1)).
  destruct (an_mask a && an_fork a) eqn:MF; cbn [negb].
  2:{ intros E. injection E as <- _ <- <-. split; [exact B2|]. split; [exact I|]. intros (_ & _ & W3 & W4 & _). rewrite W3, W4 in MF. discriminate MF. }
  set (c0 := match ty with INTERNAL => CHILD (cm t1) (map snd l) | EXTERNAL => _ end).
  assert (Fs : unused t (map snd l)) by (intros j Hj; apply Fr; unfold fds_of; apply in_or_app; right; exact Hj).
  assert (Hw : forall tw, (forall j, In (Z.of_nat j) (map snd l) -> fd_at tw j = fd_at (cm t1) j) -> holds tw worker_end k ws (map snd l)).
  { intros tw E. apply (holds_of _ _ _ _ _ false tw M). intros j Hj. rewrite E by exact Hj. unfold cm. rewrite Dm. rewrite is_fd_not; [reflexivity|]. intros X. exact (D3 j X Hj). }
  assert (C0 : match c0 with CHILD tw theirs => theirs = map snd l /\ holds tw worker_end k ws theirs /\ match ty with INTERNAL => same_but theirs t tw | EXTERNAL => only theirs tw end | _ => True end).
  { unfold c0. destruct ty.
    - split; [reflexivity|]. split; [apply Hw; reflexivity|]. intros j Hj. unfold cm. rewrite Dm. destruct (is_fd (map fst l) j) eqn:E; [apply is_fd_iff in E; symmetry; apply Fr; unfold fds_of; apply in_or_app; left; exact E|].
      apply Kp; [rewrite <- is_fd_iff; congruence|exact Hj].
    - pose proof (close_non_lemma (cm t1) (an_dir a) (an_close a) (map snd l) ltac:(intros j [])) as Q. destruct (close_non_channel_fds (cm t1) (an_dir a) (an_close a) (map snd l)) as (w, [|]); [|exact I].
      cbn [andb]. destruct (an_args a); [|exact I]. split; [reflexivity|]. split; [apply Hw; intros j Hj; rewrite Q; apply is_fd_iff in Hj; rewrite Hj; reflexivity|]. intros j Hj. rewrite Q, is_fd_not by exact Hj. reflexivity. }
  assert (P0 : all_well a -> exists tw theirs, c0 = CHILD tw theirs).
  { intros (_ & _ & _ & _ & _ & W6 & W7 & W8). unfold c0. destruct ty; [eauto|]. pose proof (close_non_lemma (cm t1) (an_dir a) (an_close a) (map snd l) ltac:(intros j [])) as Q.
    destruct (close_non_channel_fds (cm t1) (an_dir a) (an_close a) (map snd l)) as (w, [|]); [rewrite W8; eexists; eexists; reflexivity|]. destruct Q as [Q|(j & Q)]; [congruence|rewrite W7 in Q; discriminate Q]. }
  clearbody c0. intros E.
  assert (Child : forall r', (forall mine, r' = Some mine -> mine = map fst l) -> match c0 with
     | CHILD tw theirs => holds tw worker_end k ws theirs /\ unused t theirs /\ distinct theirs /\ (forall mine, r' = Some mine -> forall j, In (Z.of_nat j) mine -> ~ In (Z.of_nat j) theirs)
         /\ match ty with INTERNAL => same_but theirs t tw | EXTERNAL => only theirs tw end
     | _ => True end).
  { intros r' Hr. destruct c0; try exact I. destruct C0 as (-> & C1 & C2). split; [exact C1|]. split; [exact Fs|]. split; [exact D2|]. split; [|exact C2]. intros mine Q. rewrite (Hr mine Q). exact D3. }
  destruct (an_proxy a) eqn:AP; injection E as <- _ <- <-.
  - split; [|split; [exact (Child (Some (map fst l)) (fun mine Q => ltac:(injection Q as <-; reflexivity)))|intros W; split; [discriminate|exact (P0 W)]]].
    split; [apply (holds_of _ _ _ _ _ true (ct t1) M); intros j Hj; unfold ct; rewrite Dt, is_fd_not; [reflexivity|exact (D3 j Hj)]|]. split.
    + intros j Hj. unfold ct. rewrite Dt. destruct (is_fd (map snd l) j) eqn:E; [apply is_fd_iff in E; symmetry; apply Fs; exact E|]. apply Kp; [exact Hj|rewrite <- is_fd_iff; congruence].
    + split; [|exact D1]. intros j Hj. apply Fr. unfold fds_of. apply in_or_app. left. exact Hj.
  - split; [exact B1|]. split; [exact (Child None ltac:(discriminate))|]. intros (_ & _ & _ & _ & W5 & _). congruence.
Qed.

(* The program of an external worker *)
Lemma dup_lemma t fd to d : (0 <= fd)%Z -> fd_at t (Z.to_nat fd) = Some d -> Z.to_nat fd <> to -> sys_dup2 t true fd to = Some (fd_set t to (Some (Desc (d_obj d) false))).
Proof. intros P A N. unfold sys_dup2. cbn [negb orb]. replace (fd <? 0)%Z with false by lia. rewrite A. destruct (Nat.eqb_spec (Z.to_nat fd) to); [contradiction|reflexivity]. Qed.
Definition worker_fds (t : fdtab) (k : nat) (ws : list wire) (fds : list Z) : Prop :=
  length fds = length ws /\ forall i w fd, nth_error ws i = Some w -> nth_error fds i = Some fd -> (0 <= fd)%Z /\ fd_at t (Z.to_nat fd) = worker_end (w_type w) (k + i).
Lemma redirect_one t k w fd to : w_type w <> WIRE_NONE -> (0 <= fd)%Z -> fd_at t (Z.to_nat fd) = worker_end (w_type w) k -> w_redir w = Some to -> Z.to_nat fd <> to ->
  exists t1, redirect t true w fd = (t1, Z.of_nat to, true)
    /\ forall j, fd_at t1 j = if Z.to_nat fd =? j then None else if to =? j then option_map (fun d => Desc (d_obj d) false) (worker_end (w_type w) k) else fd_at t j.
Proof.
  intros W P A R N. destruct (worker_end (w_type w) k) as [d|] eqn:E; [|destruct (proj2 (end_not_none (w_type w) k W) E)].
  exists (sys_close (fd_set t to (Some (Desc (d_obj d) false))) fd). split.
  - unfold redirect. rewrite R, (dup_lemma t fd to d P A N). destruct (w_type w); try reflexivity. contradiction.
  - intros j. rewrite at_close, at_set. cbn [option_map]. destruct (fd =? Z.of_nat j)%Z eqn:F, (Z.to_nat fd =? j) eqn:G; try reflexivity; lia.
Qed.
Lemma setup_lemma ws : forall t k oks fds, wired ws -> Forall (fun b => b = true) oks -> worker_fds t k ws fds -> NoDup fds -> NoDup (targets ws) -> (forall to, In to (targets ws) -> ~ In (Z.of_nat to) fds) ->
  exists t' fds', setup_channels t oks ws fds = (t', fds', true)
    /\ (forall i w fd to, nth_error ws i = Some w -> nth_error fds i = Some fd -> w_redir w = Some to ->
          fd_at t' (Z.to_nat fd) = None /\ fd_at t' to = option_map (fun d => Desc (d_obj d) false) (worker_end (w_type w) (k + i)) /\ nth_error fds' i = Some (Z.of_nat to))
    /\ (forall i w fd, nth_error ws i = Some w -> nth_error fds i = Some fd -> w_redir w = None -> fd_at t' (Z.to_nat fd) = worker_end (w_type w) (k + i) /\ nth_error fds' i = Some fd)
    /\ (forall j, ~ In (Z.of_nat j) fds -> ~ In j (targets ws) -> fd_at t' j = fd_at t j)
    /\ length fds' = length ws.
Proof.
  induction ws as [|w ws IH]; intros t k oks fds Wi Ok (L & Hf) ND NT Dis.
  - destruct fds; [|discriminate L]. exists t, []. split; [reflexivity|]. repeat (split; [intros [|?]; discriminate|]). split; [reflexivity|reflexivity].
  - destruct fds as [|fd fds]; [discriminate L|]. inversion_clear Wi as [|? ? W Wi']. inversion_clear ND as [|? ? Nf ND']. destruct (Hf 0 w fd eq_refl eq_refl) as (P & A). rewrite Nat.add_0_r in A. cbn [setup_channels].
    assert (Hh : hd true oks = true) by (destruct Ok; [reflexivity|assumption]). assert (Ht : Forall (fun b => b = true) (tl oks)) by (destruct Ok; [constructor|assumption]). rewrite Hh.
    assert (Pos : forall i x, nth_error fds i = Some x -> (0 <= x)%Z /\ x <> fd).
    { intros i x Hx. assert (i < length ws) as Li. { assert (i < length fds) by (apply nth_error_Some; congruence). cbn in L. lia. } destruct (nth_error ws i) as [w'|] eqn:E; [|apply nth_error_None in E; lia].
      split; [exact (proj1 (Hf (S i) w' x E Hx))|]. intros ->. exact (Nf (nth_error_In _ _ Hx)). }
    destruct (w_redir w) as [to|] eqn:R.
    + unfold targets in NT, Dis. cbn [flat_map] in NT, Dis. rewrite R in NT, Dis. cbn [app] in NT, Dis. fold (targets ws) in NT, Dis. inversion_clear NT as [|? ? Nt NT'].
      assert (N : Z.to_nat fd <> to) by (intros X; apply (Dis to (or_introl eq_refl)); left; lia).
      destruct (redirect_one t k w fd to W P A R N) as (t1 & E1 & A1). rewrite E1.
      destruct (IH t1 (S k) (tl oks) fds Wi' Ht) as (t' & fds' & E & F1 & F2 & F3 & F4); [|exact ND'|exact NT'|intros x Hx X; exact (Dis x (or_intror Hx) (or_intror X))|].
      { split; [cbn in L; lia|]. intros i w' x Hw Hx. destruct (Pos i x Hx) as (Px & Nx). split; [exact Px|]. rewrite A1. destruct (Nat.eqb_spec (Z.to_nat fd) (Z.to_nat x)); [lia|].
        destruct (Nat.eqb_spec to (Z.to_nat x)) as [X|_]; [destruct (Dis to (or_introl eq_refl)); right; rewrite X, Z2Nat.id by exact Px; exact (nth_error_In _ _ Hx)|].
        replace (S k + i) with (k + S i) by lia. exact (proj2 (Hf (S i) w' x Hw Hx)). }
      rewrite E. exists t', (Z.of_nat to :: fds'). split; [reflexivity|].
      assert (Kt : forall j, ~ In (Z.of_nat j) fds -> ~ In j (targets ws) -> fd_at t' j = fd_at t1 j) by exact F3.
      split; [|split; [|split]].
      * intros [|i] w' x to' Hw Hx R'; cbn in Hw, Hx.
        -- injection Hw as <-. injection Hx as <-. rewrite R in R'. injection R' as <-. rewrite Nat.add_0_r. split; [|split; [|reflexivity]].
           ++ destruct (in_dec Nat.eq_dec (Z.to_nat fd) (targets ws)) as [X|X]; [destruct (Dis (Z.to_nat fd) (or_intror X)); left; lia|]. rewrite Kt; [rewrite A1, Nat.eqb_refl; reflexivity|rewrite Z2Nat.id by exact P; exact Nf|exact X].
           ++ rewrite Kt; [|intros X; exact (Dis to (or_introl eq_refl) (or_intror X))|exact Nt]. rewrite A1, Nat.eqb_refl. destruct (Nat.eqb_spec (Z.to_nat fd) to); [contradiction|reflexivity].
        -- replace (k + S i) with (S k + i) by lia. exact (F1 i w' x to' Hw Hx R').
      * intros [|i] w' x Hw Hx R'; cbn in Hw, Hx; [injection Hw as <-; congruence|]. replace (k + S i) with (S k + i) by lia. exact (F2 i w' x Hw Hx R').
      * intros j N1 N2. unfold targets in N2. cbn [flat_map] in N2. rewrite R in N2. cbn [app In] in N2. fold (targets ws) in N2. cbn [In] in N1. rewrite Kt by tauto. rewrite A1.
        destruct (Nat.eqb_spec (Z.to_nat fd) j); [destruct N1; left; lia|]. destruct (Nat.eqb_spec to j); [tauto|reflexivity].
      * cbn. congruence.
    + assert (E1 : redirect t true w fd = (t, fd, true)) by (unfold redirect; rewrite R; reflexivity). rewrite E1. unfold targets in NT, Dis. cbn [flat_map] in NT, Dis. rewrite R in NT, Dis. cbn [app] in NT, Dis. fold (targets ws) in NT, Dis.
      destruct (IH t (S k) (tl oks) fds Wi' Ht) as (t' & fds' & E & F1 & F2 & F3 & F4); [|exact ND'|exact NT|intros x Hx X; exact (Dis x Hx (or_intror X))|].
      { split; [cbn in L; lia|]. intros i w' x Hw Hx. replace (S k + i) with (k + S i) by lia. exact (Hf (S i) w' x Hw Hx). }
      rewrite E. exists t', (fd :: fds'). split; [reflexivity|]. split; [|split; [|split]].
      * intros [|i] w' x to' Hw Hx R'; cbn in Hw, Hx; [injection Hw as <-; congruence|]. replace (k + S i) with (S k + i) by lia. exact (F1 i w' x to' Hw Hx R').
      * intros [|i] w' x Hw Hx R'; cbn in Hw, Hx.
        -- injection Hw as <-. injection Hx as <-. split; [|reflexivity]. rewrite Nat.add_0_r, F3; [exact A|rewrite Z2Nat.id by exact P; exact Nf|]. intros X. apply (Dis _ X). left. lia.
        -- replace (k + S i) with (S k + i) by lia. exact (F2 i w' x Hw Hx R').
      * intros j N1 N2. unfold targets in N2. cbn [flat_map] in N2. rewrite R in N2. cbn [app] in N2. fold (targets ws) in N2. cbn [In] in N1. apply F3; tauto.
      * cbn. congruence.
Qed.
Lemma worker_of_holds t k ws fds : wired ws -> holds t worker_end k ws fds -> worker_fds t k ws fds.
Proof.
  intros W (L & H). split; [exact L|]. intros i w fd Hw Hf. specialize (H i w fd Hw Hf). destruct (worker_end (w_type w) (k + i)) eqn:E; [exact H|].
  unfold wired in W. rewrite Forall_forall in W. destruct (proj2 (end_not_none (w_type w) (k + i) (W w (nth_error_In _ _ Hw))) E).
Qed.
Lemma nodup_of t k ws fds : worker_fds t k ws fds -> distinct fds -> NoDup fds.
Proof.
  intros (L & H) D. unfold distinct in D. assert (P : forall x, In x fds -> (0 <=? x)%Z = true).
  { intros x Hx. apply In_nth_error in Hx. destruct Hx as (i & Hi). destruct (nth_error ws i) as [w|] eqn:E; [|apply nth_error_None in E; assert (i < length fds) by (apply nth_error_Some; congruence); lia]. destruct (H i w x E Hi) as (P & _). lia. }
  clear - D P. induction fds as [|x fds IH]; [constructor|]. cbn [filter] in D. rewrite (P x (or_introl eq_refl)) in D. inversion_clear D as [|? ? N D']. constructor; [|apply IH; [exact D'|intros y Hy; apply P; right; exact Hy]].
  intros X. apply N. apply filter_In. split; [exact X|apply P; left; reflexivity].
Qed.
Lemma target_in ws to : In to (targets ws) <-> exists i w, nth_error ws i = Some w /\ w_redir w = Some to.
Proof.
  unfold targets. rewrite in_flat_map. split.
  - intros (w & Hw & H). apply In_nth_error in Hw. destruct Hw as (i & Hi). exists i, w. split; [exact Hi|]. destruct (w_redir w); [destruct H as [->|[]]; reflexivity|destruct H].
  - intros (i & w & Hi & R). exists w. split; [exact (nth_error_In _ _ Hi)|]. rewrite R. left. reflexivity.
Qed.
Lemma program_lemma t k ws fds oks : wired ws -> holds t worker_end k ws fds -> distinct fds -> only fds t -> NoDup (targets ws) -> (forall to, In to (targets ws) -> ~ In (Z.of_nat to) fds) -> Forall (fun b => b = true) oks ->
  exists t', run_external t oks true true ws fds = (t', true) /\ program_has t' k ws fds /\ (forall j, ~ In (Z.of_nat j) fds -> ~ In j (targets ws) -> fd_at t' j = None)
    /\ (forall i w fd to, nth_error ws i = Some w -> nth_error fds i = Some fd -> w_redir w = Some to -> fd_at t' (Z.to_nat fd) = None).
Proof.
  intros W H D O NT Dis Ok. pose proof (worker_of_holds _ _ _ _ W H) as Hw. destruct (setup_lemma ws t k oks fds W Ok Hw (nodup_of _ _ _ _ Hw D) NT Dis) as (t' & fds' & E & F1 & F2 & F3 & _).
  exists (sys_exec t'). unfold run_external. rewrite E. cbn [andb]. split; [reflexivity|]. split; [|split].
  - intros i w fd Hi Hf. destruct (w_redir w) as [to|] eqn:R.
    + destruct (F1 i w fd to Hi Hf R) as (_ & A & _). rewrite at_exec, A. destruct (worker_end (w_type w) (k + i)); reflexivity.
    + destruct (F2 i w fd Hi Hf R) as (A & _). rewrite at_exec, A. destruct (w_type w); reflexivity.
  - intros j N1 N2. rewrite at_exec, F3 by assumption. rewrite O by exact N1. reflexivity.
  - intros i w fd to Hi Hf R. destruct (F1 i w fd to Hi Hf R) as (A & _). rewrite at_exec, A. reflexivity.
Qed.
Lemma external_lemma t k a ws t' k' r tw fds oks : get_new_worker (t, k) a EXTERNAL ws = (t', k', r, CHILD tw fds) -> wired ws -> NoDup (targets ws) -> (forall to, In to (targets ws) -> fd_at t to <> None) -> Forall (fun b => b = true) oks ->
  exists tp, run_external tw oks true true ws fds = (tp, true) /\ program_has tp k ws fds
    /\ (forall j, ~ In (Z.of_nat j) fds -> ~ In j (targets ws) -> fd_at tp j = None)
    /\ (forall i w fd to, nth_error ws i = Some w -> nth_error fds i = Some fd -> w_redir w = Some to -> fd_at tp (Z.to_nat fd) = None).
Proof.
  intros E W NT Us Ok. destruct (new_worker_lemma _ _ _ _ _ _ _ _ _ E) as (_ & (H & U & D & _ & O) & _). apply program_lemma; try assumption. intros to Hto X. exact (Us to Hto (U to X)).
Qed.
(* Number 0 of the program, when no wire asks for it and the caller has it in use *)
Lemma stdin_lemma t k a ws t' k' r tw fds oks : get_new_worker (t, k) a EXTERNAL ws = (t', k', r, CHILD tw fds) -> wired ws -> NoDup (targets ws) -> (forall to, In to (targets ws) -> fd_at t to <> None) -> Forall (fun b => b = true) oks ->
  forall j, fd_at t j <> None -> ~ In j (targets ws) -> exists tp, run_external tw oks true true ws fds = (tp, true) /\ fd_at tp j = None.
Proof.
  intros E W NT Us Ok j Hj Nj. destruct (external_lemma _ _ _ _ _ _ _ _ _ _ E W NT Us Ok) as (tp & R & _ & F & _). exists tp. split; [exact R|]. apply F; [|exact Nj].
  destruct (new_worker_lemma _ _ _ _ _ _ _ _ _ E) as (_ & (_ & U & _) & _). intros X. exact (Hj (U j X)).
Qed.
(* A wire that has the number it asks for is closed *)
Lemma same_number_lemma t w to d : w_type w <> WIRE_NONE -> w_redir w = Some to -> fd_at t to = Some d -> exists t', redirect t true w (Z.of_nat to) = (t', Z.of_nat to, true) /\ fd_at t' to = None.
Proof.
  intros W R A. exists (sys_close t (Z.of_nat to)). split; [|rewrite at_close, Z.eqb_refl; reflexivity]. unfold redirect. rewrite R. unfold sys_dup2. cbn [negb orb]. replace (Z.of_nat to <? 0)%Z with false by lia. rewrite Nat2Z.id, A, Nat.eqb_refl.
  destruct (w_type w); try reflexivity. contradiction.
Qed.
(* A socket whose redirection fails is closed and the program is run nevertheless *)
Lemma socket_lemma t w to fd : w_type w = WIRE_SOCKET -> w_redir w = Some to -> (0 <= fd)%Z -> exists t', redirect t false w fd = (t', Z.of_nat to, true) /\ fd_at t' (Z.to_nat fd) = None /\ forall j, j <> Z.to_nat fd -> fd_at t' j = fd_at t j.
Proof.
  intros W R P. exists (sys_close t fd). split; [unfold redirect; rewrite R, W; reflexivity|]. split; [rewrite at_close, Z2Nat.id, Z.eqb_refl by exact P; reflexivity|].
  intros j Hj. rewrite at_close. destruct (fd =? Z.of_nat j)%Z eqn:F; [lia|reflexivity].
Qed.
(* End of the proxy *)
Lemma proxy_gone_lemma t k a ty ws t' k' mine c : get_new_worker (t, k) a ty ws = (t', k', Some mine, c) -> same_fds t (destroy_proxy t' ws mine).
Proof.
  intros E. destruct (new_worker_lemma _ _ _ _ _ _ _ _ _ E) as (((L & H) & S & U & _) & _). intros j. unfold destroy_proxy. rewrite at_destroy; [|exact L|].
  - destruct (is_fd mine j) eqn:F; [apply is_fd_iff in F; symmetry; exact (U j F)|]. apply S. rewrite <- is_fd_iff. congruence.
  - intros i w fd Hw Hf N. specialize (H i w fd Hw Hf). rewrite N in H. exact H.
Qed.
(* The daemon *)
Lemma at_down l : forall t j, fd_at (close_down t l) j = if existsb (Nat.eqb j) l then None else fd_at t j.
Proof.
  induction l as [|x l IH]; intros t j; [reflexivity|]. cbn [close_down existsb]. rewrite IH, at_set. destruct (Nat.eqb_spec x j) as [->|N]; [rewrite Nat.eqb_refl; destruct (existsb _ l); reflexivity|].
  destruct (Nat.eqb_spec j x); [congruence|reflexivity].
Qed.
Lemma daemon_lemma t k max : let t' := become_daemon t k max in
  ((forall i, i < 3 -> fd_at t i <> None) -> forall i, i < 3 -> fd_at t' i = Some (Desc (File k) false))
  /\ (forall i, 3 <= i < max -> fd_at t' i = None)
  /\ (forall i, i < 3 -> (forall j, j < i -> fd_at t j <> None) -> fd_at t i = None -> fd_at t' i = None).
Proof.
  intros t'. set (fd := lowest t). set (d := Some (Desc (File k) false)).
  assert (Dup : forall t0 to j, fd_at t0 fd = d -> fd_at (dup_or_same t0 fd to) j = if to =? j then d else fd_at t0 j).
  { intros t0 to j A. unfold dup_or_same, sys_dup2. cbn [negb orb]. replace (Z.of_nat fd <? 0)%Z with false by lia. rewrite Nat2Z.id, A. unfold d. destruct (Nat.eqb_spec fd to) as [<-|N]; [destruct (Nat.eqb_spec fd j) as [<-|]; [exact A|reflexivity]|]. apply at_set. }
  assert (A : forall j, fd_at t' j = if existsb (Nat.eqb j) (rev (seq 3 (max - 3))) then None else if fd =? j then None else if j <? 3 then d else fd_at t j).
  { intros j. unfold t', become_daemon, fd_open. fold fd. fold d. rewrite at_down, at_set. destruct (existsb _ _); [reflexivity|].
    assert (S0 : fd_at (fd_set t fd d) fd = d) by (rewrite at_set, Nat.eqb_refl; reflexivity).
    assert (S1 : fd_at (dup_or_same (fd_set t fd d) fd 0) fd = d) by (rewrite Dup by exact S0; destruct (0 =? fd); [reflexivity|exact S0]).
    assert (S2 : fd_at (dup_or_same (dup_or_same (fd_set t fd d) fd 0) fd 1) fd = d) by (rewrite Dup by exact S1; destruct (1 =? fd); [reflexivity|exact S1]).
    rewrite Dup by exact S2. rewrite Dup by exact S1. rewrite Dup by exact S0. rewrite at_set. destruct (Nat.eqb_spec fd j); [reflexivity|].
    destruct j as [|[|[|j]]]; reflexivity. }
  assert (In3 : forall j, existsb (Nat.eqb j) (rev (seq 3 (max - 3))) = true <-> 3 <= j < max).
  { intros j. rewrite existsb_exists. split; [intros (x & H & E); apply Nat.eqb_eq in E; subst x; apply in_rev in H; rewrite in_seq in H; lia|intros H; exists j; split; [apply -> in_rev; apply in_seq; lia|apply Nat.eqb_refl]]. }
  assert (Lo : forall j, j < 3 -> existsb (Nat.eqb j) (rev (seq 3 (max - 3))) = false) by (intros j H; destruct (existsb _ _) eqn:E; [apply In3 in E; lia|reflexivity]).
  pose proof (at_lowest t) as Lw. fold fd in Lw. split; [|split].
  - intros H i Hi. rewrite A, Lo by exact Hi. destruct (Nat.eqb_spec fd i) as [E|_]; [destruct (H i Hi); congruence|]. apply Nat.ltb_lt in Hi. rewrite Hi. reflexivity.
  - intros i Hi. rewrite A. apply In3 in Hi. rewrite Hi. reflexivity.
  - intros i Hi Hj Hn. rewrite A, Lo by exact Hi. assert (fd = i) as ->; [|rewrite Nat.eqb_refl; reflexivity].
    destruct (lt_eq_lt_dec fd i) as [[X|X]|X]; [destruct (Hj fd X Lw)|exact X|destruct (low_used t i X Hn)].
Qed.
(* Any sequence *)
Definition all_fds (live : list proxy) : list Z := flat_map pfds live.
Definition finv (base : fdtab) (s : fdtab * nat * list proxy) : Prop :=
  let '(t, _, live) := s in
  Forall (fun p => holds t proxy_end (fst (fst p)) (snd (fst p)) (pfds p)) live /\ distinct (all_fds live) /\ same_but (all_fds live) base t /\ unused base (all_fds live).
Lemma holds_used t k ws fds : holds t proxy_end k ws fds -> forall j, In (Z.of_nat j) fds -> fd_at t j <> None.
Proof.
  intros (L & H) j Hj. apply In_nth_error in Hj. destruct Hj as (i & Hi). destruct (nth_error ws i) as [w|] eqn:E; [|apply nth_error_None in E; assert (i < length fds) by (apply nth_error_Some; congruence); lia].
  specialize (H i w _ E Hi). destruct (proxy_end (w_type w) (k + i)); [|lia]. rewrite Nat2Z.id in H. destruct H as (_ & ->). discriminate.
Qed.
Lemma holds_same t t' k ws fds : holds t proxy_end k ws fds -> (forall j, In (Z.of_nat j) fds -> fd_at t' j = fd_at t j) -> holds t' proxy_end k ws fds.
Proof.
  intros (L & H) E. split; [exact L|]. intros i w fd Hw Hf. specialize (H i w fd Hw Hf). destruct (proxy_end (w_type w) (k + i)); [|exact H]. destruct H as (P & A). split; [exact P|]. rewrite E; [exact A|]. rewrite Z2Nat.id by exact P. exact (nth_error_In _ _ Hf).
Qed.
Lemma distinct_join l1 l2 : distinct l1 -> distinct l2 -> (forall j, In (Z.of_nat j) l1 -> ~ In (Z.of_nat j) l2) -> distinct (l1 ++ l2).
Proof.
  intros D1 D2 N. induction l1 as [|x l1 IH]; [exact D2|]. unfold distinct in *. cbn [filter app] in *. destruct (0 <=? x)%Z eqn:E.
  - inversion_clear D1 as [|? ? Nx D1']. constructor; [|apply IH; [exact D1'|intros j Hj; apply N; right; exact Hj]]. rewrite filter_app, in_app_iff, !filter_In. intros [(X & _)|(X & _)]; [apply Nx; apply filter_In; auto|].
    specialize (N (Z.to_nat x)). rewrite Z2Nat.id in N by lia. exact (N (or_introl eq_refl) X).
  - apply IH; [exact D1|intros j Hj; apply N; right; exact Hj].
Qed.
Lemma split_at {A} (l : list A) i x : nth_error l i = Some x -> exists l1 l2, l = l1 ++ x :: l2 /\ without l i = l1 ++ l2.
Proof.
  revert i. induction l as [|y l IH]; intros [|i] H; try discriminate; cbn in H.
  - injection H as <-. exists [], l. split; reflexivity.
  - destruct (IH i H) as (l1 & l2 & -> & E). exists (y :: l1), l2. split; [reflexivity|]. cbn. rewrite E. reflexivity.
Qed.
Lemma finv_step base s o : finv base s -> finv base (fdstep s o).
Proof.
  destruct s as ((t, k), live). intros (I1 & I2 & I3 & I4). destruct o as [a ty ws|i]; cbn [fdstep].
  - destruct (get_new_worker (t, k) a ty ws) as (((t', k'), r), c) eqn:E. destruct (new_worker_lemma _ _ _ _ _ _ _ _ _ E) as (R & _).
    assert (Used : forall j, In (Z.of_nat j) (all_fds live) -> fd_at t j <> None).
    { intros j Hj. unfold all_fds in Hj. apply in_flat_map in Hj. destruct Hj as (p & Hp & Hj). rewrite Forall_forall in I1. exact (holds_used _ _ _ _ (I1 p Hp) j Hj). }
    destruct r as [mine|].
    + destruct R as (R1 & R2 & R3 & R4). assert (N : forall j, In (Z.of_nat j) mine -> ~ In (Z.of_nat j) (all_fds live)) by (intros j Hj X; exact (Used j X (R3 j Hj))).
      unfold finv, all_fds. cbn [flat_map pfds snd]. fold (all_fds live). split; [|split; [|split]].
      * constructor; [exact R1|]. rewrite Forall_forall in *. intros p Hp. apply (holds_same t); [exact (I1 p Hp)|]. intros j Hj. apply R2. intros X. apply (N j X). unfold all_fds. apply in_flat_map. exists p. auto.
      * apply distinct_join; assumption.
      * intros j Hj. rewrite in_app_iff in Hj. rewrite R2 by tauto. apply I3. tauto.
      * intros j Hj. apply in_app_or in Hj. destruct Hj as [Hj|Hj]; [|exact (I4 j Hj)]. rewrite <- (I3 j (N j Hj)). exact (R3 j Hj).
    + split; [|split; [exact I2|split; [|exact I4]]].
      * rewrite Forall_forall in *. intros p Hp. apply (holds_same t); [exact (I1 p Hp)|]. intros j _. exact (R j).
      * intros j Hj. rewrite R. exact (I3 j Hj).
  - destruct (nth_error live i) as [((k0, ws), mine)|] eqn:E; [|exact (conj I1 (conj I2 (conj I3 I4)))]. destruct (split_at _ _ _ E) as (l1 & l2 & -> & W). rewrite W.
    assert (Q : forall x, In x (all_fds (l1 ++ (k0, ws, mine) :: l2)) <-> In x mine \/ In x (all_fds (l1 ++ l2))).
    { intros x. unfold all_fds. rewrite !flat_map_app. cbn [flat_map pfds snd]. rewrite !in_app_iff. tauto. }
    assert (Dd : distinct (mine ++ all_fds (l1 ++ l2))).
    { unfold all_fds in *. rewrite flat_map_app in *. cbn [flat_map pfds snd] in I2. unfold distinct in *. rewrite !filter_app in *. apply (Permutation_NoDup (l := filter (fun fd => (0 <=? fd)%Z) (flat_map pfds l1) ++ filter (fun fd => (0 <=? fd)%Z) mine ++ filter (fun fd => (0 <=? fd)%Z) (flat_map pfds l2))); [|exact I2].
      rewrite !app_assoc. apply Permutation_app_tail. apply Permutation_app_comm. }
    destruct (distinct_app _ _ Dd) as (_ & D2 & D3). assert (Hm : holds t proxy_end k0 ws mine) by (rewrite Forall_forall in I1; exact (I1 (k0, ws, mine) ltac:(apply in_or_app; right; left; reflexivity))).
    assert (At : forall j, fd_at (destroy_proxy t ws mine) j = if is_fd mine j then None else fd_at t j).
    { intros j. destruct Hm as (L & H). unfold destroy_proxy. apply at_destroy; [exact L|]. intros i0 w fd Hw Hf Z. specialize (H i0 w fd Hw Hf). rewrite Z in H. exact H. }
    split; [|split; [exact D2|split]].
    + rewrite Forall_forall in *. intros p Hp. apply (holds_same t); [apply I1; apply in_app_iff; apply in_app_iff in Hp; cbn [In]; tauto|]. intros j Hj. rewrite At, is_fd_not; [reflexivity|].
      intros X. apply (D3 j X). unfold all_fds. apply in_flat_map. exists p. auto.
    + intros j Hj. rewrite At. destruct (is_fd mine j) eqn:F; [apply is_fd_iff in F; symmetry; apply I4; apply Q; auto|]. apply I3. rewrite Q, <- is_fd_iff. intros [X|X]; [congruence|contradiction].
    + intros j Hj. apply I4. apply Q. auto.
Qed.
Lemma no_leak_lemma base k ops t k' live : fdrun (base, k, []) ops = (t, k', live) ->
  Forall (fun p => holds t proxy_end (fst (fst p)) (snd (fst p)) (pfds p)) live /\ distinct (flat_map pfds live) /\ same_but (flat_map pfds live) base t /\ (live = [] -> same_fds base t).
Proof.
  intros E. assert (I : finv base (fdrun (base, k, []) ops)).
  { clear E. unfold fdrun. assert (I0 : finv base (base, k, [])) by (split; [constructor|split; [constructor|split; [intros j _; reflexivity|intros j []]]]). revert I0. generalize (base, k, @nil proxy) as s.
    induction ops as [|o ops IH]; intros s H; [exact H|]. cbn [fold_left]. apply IH. apply finv_step. exact H. }
  rewrite E in I. destruct I as (I1 & I2 & I3 & I4). split; [exact I1|]. split; [exact I2|]. split; [exact I3|]. intros ->. intros j. apply I3. intros [].
Qed.
