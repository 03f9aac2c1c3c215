From Verif Require Import Base UbrDb_Model UbrDelta_Model UbrKey_Model UbrScan_Model UbrScan_Spec UbrScan_Proofs UbrExec_Model UbrExec_Spec.
Local Open Scope nat_scope.

Lemma did_app e p s cs s1 cs' s2 : did e p s cs s1 -> did e p s1 cs' s2 -> did e p s (cs ++ cs') s2.
Proof. induction 1; intros H'; [exact H'|]. cbn [app]. econstructor; eauto. Qed.
Lemma did_phase e p s cs s' : keeps_phase e -> did e p s cs s' -> sc_phase s = p -> sc_phase s' = p.
Proof. intros [K _]. induction 1 as [|s m f s1 r cs s2 F P E D IH]; intros H; [exact H|]. apply IH. rewrite (K _ _ _ _ _ _ F E). exact H. Qed.

(* what stays the same *)
Definition frame (x x' : xst) : Prop := x_current x' = x_current x /\ x_next x' = x_next x /\ x_iter x' = x_iter x.
Lemma frame_trans x y z : frame x y -> frame y z -> frame x z.
Proof. intros (A & B & C) (A' & B' & C'). repeat split; congruence. Qed.
Lemma frame_refl x : frame x x. Proof. repeat split. Qed.

Lemma call_lemma e x m x' r : call_fn e x m = Ok (x', r) -> let p := sc_phase (x_scan x) in
  exists cs, x_calls x' = x_calls x ++ cs /\ did e p (x_scan x) cs (x_scan x') /\ map module cs = filter (serves e p) [m] /\ frame x x'
    /\ (cs = [] /\ r = 0%Z \/ cs = [(m, p, r)]).
Proof.
  intros E p. unfold call_fn in E. fold p in E. unfold serves. cbn [filter]. destruct (e_fn e m p) as [f|] eqn:F.
  - destruct (f (x_scan x)) as [[s q]|] eqn:G; [|discriminate]. cbn [obind] in E. injection E as <- <-. exists [(m, p, q)].
    cbn [x_calls x_scan]. split; [reflexivity|]. split; [|split; [reflexivity|split; [repeat split|right; reflexivity]]].
    econstructor; eauto. constructor.
  - injection E as <- <-. exists []. rewrite app_nil_r. split; [reflexivity|]. split; [constructor|]. split; [reflexivity|]. split; [apply frame_refl|left; auto].
Qed.
Lemma block_loop_lemma e : keeps_phase e -> forall l x x' r, block_loop e x l = Ok (x', r) -> let p := sc_phase (x_scan x) in
  exists cs, x_calls x' = x_calls x ++ cs /\ did e p (x_scan x) cs (x_scan x') /\ up_to_failure (filter (serves e p) l) cs /\ frame x x'.
Proof.
  intros K. induction l as [|m l IH]; intros x x' r E p; cbn [block_loop] in E.
  - injection E as <- <-. exists []. rewrite app_nil_r. split; [reflexivity|]. split; [constructor|]. split; [|apply frame_refl].
    exists []. split; [reflexivity|]. split; [|congruence]. intros [|c0 pre] c post H; discriminate H.
  - destruct (call_fn e x m) as [[x1 q]|] eqn:C; [|discriminate]. cbn [obind] in E.
    apply call_lemma in C as (c1 & C1 & D1 & M1 & F1 & R1). fold p in D1, M1, R1.
    assert (P1 : sc_phase (x_scan x1) = p) by (eapply did_phase; eauto).
    cbn [filter] in M1 |- *. destruct (q <? 0)%Z eqn:Q.
    + injection E as <- <-. destruct R1 as [(-> & ->)|R1]; [discriminate Q|]. subst c1. exists [(m, p, q)]. split; [exact C1|]. split; [exact D1|]. split; [|exact F1].
      destruct (serves e p m); [|discriminate M1]. exists (filter (serves e p) l). split; [reflexivity|]. split.
      * intros pre c post H _. destruct pre as [|? [|? ?]]; try discriminate H. injection H as _ <-. reflexivity.
      * intros _. exists [], (m, p, q). split; [reflexivity|]. cbn [result snd]. lia.
    + apply IH in E as (c2 & C2 & D2 & (rest & U1 & U2 & U3) & F2). rewrite P1 in D2, U1. exists (c1 ++ c2). split; [rewrite C2, C1, app_assoc; reflexivity|].
      split; [eapply did_app; eauto|]. split; [|eapply frame_trans; eauto]. exists rest. split; [|split].
      * rewrite map_app, M1, <- app_assoc, <- U1. destruct (serves e p m); reflexivity.
      * intros pre c post H N. destruct R1 as [(-> & _)|R1]; [apply (U2 pre c post H N)|]. subst c1. cbn [app] in H. destruct pre as [|c0 pre].
        -- injection H as <- _. cbn [result snd] in N. lia.
        -- cbn [app] in H. injection H as _ H. apply (U2 pre c post H N).
      * intros H. destruct (U3 H) as (pre & c & -> & N). exists (c1 ++ pre), c. rewrite app_assoc. auto.
Qed.
Lemma blocks_lemma e x rv x' r : keeps_phase e -> exec_block_mods e x rv = Ok (x', r) -> let p := sc_phase (x_scan x) in
  exists cs, x_calls x' = x_calls x ++ cs /\ did e p (x_scan x) cs (x_scan x') /\ up_to_failure (filter (serves e p) (if rv then rev (e_blocks e) else e_blocks e)) cs
    /\ frame x x' /\ x_iter x = true.
Proof.
  intros K E p. unfold exec_block_mods in E. destruct (x_iter x) eqn:I; [|discriminate]. apply block_loop_lemma in E as (cs & A & B & C & D); [|exact K].
  exists cs. auto 10.
Qed.
Lemma type_lemma e x m x' r : exec_type_mod e x m = Ok (x', r) -> let p := sc_phase (x_scan x) in
  exists cs, x_calls x' = x_calls x ++ cs /\ did e p (x_scan x) cs (x_scan x') /\ map module cs = filter (serves e p) (opt_list m) /\ frame x x'
    /\ ((r = -1 <-> exists c, In c cs /\ result c < 0)%Z /\ (r = -1 \/ r = 0)%Z).
Proof.
  intros E p. unfold exec_type_mod in E. destruct m as [m|]; cbn [opt_list].
  - destruct (call_fn e x m) as [[x1 q]|] eqn:C; [|discriminate]. cbn [obind] in E. apply call_lemma in C as (cs & A & B & M & F & R).
    injection E as <- <-. exists cs. split; [exact A|]. split; [exact B|]. split; [exact M|]. split; [exact F|].
    split; [|destruct (q <? 0)%Z; auto]. split.
    + intros H. destruct (q <? 0)%Z eqn:Q; [|discriminate]. destruct R as [(-> & ->)| ->]; [discriminate|]. eexists. split; [left; reflexivity|]. cbn [result snd]. lia.
    + intros (c & I & N). destruct R as [(-> & ->)| ->]; [contradiction|]. destruct I as [<-|[]]. cbn [result snd] in N. replace (q <? 0)%Z with true by lia. reflexivity.
  - injection E as <- <-. exists []. rewrite app_nil_r. split; [reflexivity|]. split; [constructor|]. split; [reflexivity|]. split; [apply frame_refl|].
    split; [|auto]. split; [discriminate|]. intros (c & [] & _).
Qed.

(* block modules, then a type module *)
Lemma bt_lemma e x m x' r : keeps_phase e -> (forall y, frame x y -> m y = m x) -> blocks_type e x m = Ok (x', r) -> let p := sc_phase (x_scan x) in
  exists bs ts, x_calls x' = x_calls x ++ bs ++ ts /\ did e p (x_scan x) (bs ++ ts) (x_scan x')
    /\ up_to_failure (filter (serves e p) (e_blocks e)) bs /\ map module ts = filter (serves e p) (opt_list (m x')) /\ frame x x' /\ x_iter x = true
    /\ ((r = -1 <-> exists c, In c ts /\ result c < 0)%Z /\ (r = -1 \/ r = 0)%Z).
Proof.
  intros K M E p. unfold blocks_type in E. destruct (exec_block_mods e x false) as [[x1 q]|] eqn:B; [|discriminate]. cbn [obind] in E.
  apply blocks_lemma in B as (bs & B1 & B2 & B3 & B4 & B5); [|exact K]. fold p in B2, B3.
  assert (P1 : sc_phase (x_scan x1) = p) by (eapply did_phase; eauto).
  apply type_lemma in E as (ts & T1 & T2 & T3 & T4 & T5). rewrite P1 in T2, T3. exists bs, ts.
  split; [rewrite T1, B1, app_assoc; reflexivity|]. split; [eapply did_app; eauto|]. split; [exact B3|].
  split; [rewrite T3, (M x1 B4), (M x' (frame_trans _ _ _ B4 T4)); reflexivity|]. split; [eapply frame_trans; eauto|]. auto.
Qed.
Lemma tb_lemma e x x' r : keeps_phase e -> type_blocks e x = Ok (x', r) -> let p := sc_phase (x_scan x) in
  exists bs ts, x_calls x' = x_calls x ++ ts ++ bs /\ did e p (x_scan x) (ts ++ bs) (x_scan x')
    /\ up_to_failure (filter (serves e p) (rev (e_blocks e))) bs /\ map module ts = filter (serves e p) (opt_list (x_current x')) /\ frame x x' /\ x_iter x = true
    /\ ((r = -1 <-> exists c, In c ts /\ result c < 0)%Z /\ (r = -1 \/ r = 0)%Z).
Proof.
  intros K E p. unfold type_blocks in E. destruct (exec_type_mod e x (x_current x)) as [[x1 q]|] eqn:T; [|discriminate]. cbn [obind] in E.
  apply type_lemma in T as (ts & T1 & T2 & T3 & T4 & T5). fold p in T2, T3.
  assert (P1 : sc_phase (x_scan x1) = p) by (eapply did_phase; eauto).
  destruct (exec_block_mods e x1 true) as [[x2 q2]|] eqn:B; [|discriminate]. cbn [obind] in E. injection E as <- <-.
  apply blocks_lemma in B as (bs & B1 & B2 & B3 & B4 & B5); [|exact K]. rewrite P1 in B2, B3. exists bs, ts.
  split; [rewrite B1, T1, app_assoc; reflexivity|]. split; [eapply did_app; eauto|]. split; [exact B3|].
  assert (F := frame_trans _ _ _ T4 B4).
  split; [rewrite (proj1 F); exact T3|]. split; [exact F|]. split; [|exact T5]. rewrite <- (proj2 (proj2 T4)). exact B5.
Qed.

(* the state that is read *)
Lemma ready_of_lemma e x x' n : ready_of e x = Ok (x', n) -> sc_db (x_scan x') = sc_db (x_scan x) /\ sc_phase (x_scan x') = sc_phase (x_scan x) /\ frame x x' /\ x_calls x' = x_calls x
  /\ sc_ready (x_scan x') = n /\ sc_reserved (x_scan x') = sc_reserved (x_scan x) /\ (reads_ready (x_scan x) (e_ucmd e) -> n = stored (sc_db (x_scan x)) (ready_key (dev_id (e_ucmd e)))).
Proof.
  unfold ready_of. destruct (get_ready (x_scan x) (e_ucmd e) OWNER_CORE 0) as [[s m]|] eqn:G; [|discriminate]. cbn [obind]. intros E. injection E as <- <-.
  cbn [x_scan with_scan x_calls]. assert (G' := G). unfold get_ready in G. cbn [Nat.eqb negb] in G.
  assert (R : reads_ready (x_scan x) (e_ucmd e) -> m = stored (sc_db (x_scan x)) (ready_key (dev_id (e_ucmd e)))).
  { intros (H1 & H2). destruct (state_loaded_lemma (x_scan x) (e_ucmd e) OWNER_CORE H1 H2) as (s' & E & _). rewrite E in G'. injection G' as _ <-. reflexivity. }
  destruct (sc_ready (x_scan x) =? RDY_UNDEFINED)%N.
  - destruct (get_int _ _ _ _ _) as [v|]; [|discriminate]. cbn [obind] in G. injection G as <- <-. cbn [sc_db sc_phase sc_ready sc_reserved]. repeat split. exact R.
  - injection G as <- <-. repeat split. exact R.
Qed.
Lemma get_reserved_core s u s' n : get_reserved s u OWNER_CORE 0 = Ok (s', n) -> sc_phase s' = sc_phase s /\ sc_ready s' = sc_ready s /\ sc_reserved s' = n /\ sc_db s' = sc_db s.
Proof.
  unfold get_reserved. cbn [Nat.eqb negb]. destruct (_ =? _)%N.
  - destruct (get_int _ _ _ _ _); [|discriminate]. cbn [obind]. intros E; injection E as <- <-. auto.
  - intros E; injection E as <- <-. auto.
Qed.
(* making an unprocessed device public or free *)
Lemma to_public s u s' r : may_set_ready (sc_phase s) -> sc_ready s = RDY_UNPROCESSED -> set_ready s u OWNER_CORE RDY_PUBLIC false = Ok (s', r) ->
  r = 0%Z /\ sc_ready s' = RDY_PUBLIC /\ sc_phase s' = sc_phase s /\ sc_reserved s' = sc_reserved s /\ stored (sc_db s') (ready_key (dev_id u)) = RDY_PUBLIC
  /\ stored (sc_db s') (reserved_key (dev_id u)) = stored (sc_db s) (reserved_key (dev_id u)).
Proof.
  intros P H E. assert (B1 : (RDY_PUBLIC <= 8)%N) by (vm_compute; discriminate). assert (B2 : (sc_ready s <= 8)%N) by (rewrite H; vm_compute; discriminate).
  destruct (set_ready_lemma s u OWNER_CORE RDY_PUBLIC false B1 B2) as (_ & _ & _ & L4).
  destruct L4 as (d' & E' & W); [exact P|rewrite H; discriminate|rewrite H; unfold ready_move; repeat split; try discriminate|].
  rewrite E' in E. destruct (_ <? 0)%Z; [discriminate|]. injection E as <- <-. cbn [sc_ready sc_phase sc_db sc_reserved]. split; [reflexivity|]. split; [reflexivity|]. split; [reflexivity|]. split; [reflexivity|].
  split; [rewrite ready_is_key; refine (stored_written _ _ _ _ _ _ _ _ W); vm_compute; reflexivity|].
  apply (stored_other _ _ _ _ _ _ _ _ W); rewrite reserved_is_key; [intros X; apply (keys_differ u); congruence|discriminate].
Qed.
Lemma to_free s u s' r : may_set_reserved (sc_phase s) -> sc_reserved s = RES_UNPROCESSED -> set_reserved s u OWNER_CORE RES_FREE false = Ok (s', r) ->
  r = 0%Z /\ sc_reserved s' = RES_FREE /\ sc_phase s' = sc_phase s /\ sc_ready s' = sc_ready s /\ stored (sc_db s') (reserved_key (dev_id u)) = RES_FREE
  /\ stored (sc_db s') (ready_key (dev_id u)) = stored (sc_db s) (ready_key (dev_id u)).
Proof.
  intros P H E. assert (B1 : (RES_FREE <= 4)%N) by (vm_compute; discriminate). assert (B2 : (sc_reserved s <= 4)%N) by (rewrite H; vm_compute; discriminate).
  destruct (set_reserved_lemma s u OWNER_CORE RES_FREE false B1 B2) as (_ & _ & _ & L4).
  destruct L4 as (d' & E' & W); [exact P|rewrite H; discriminate|rewrite H; unfold reserved_move; repeat split; try discriminate|].
  rewrite E' in E. destruct (_ <? 0)%Z; [discriminate|]. injection E as <- <-. cbn [sc_reserved sc_phase sc_db sc_ready]. split; [reflexivity|]. split; [reflexivity|]. split; [reflexivity|]. split; [reflexivity|].
  split; [rewrite reserved_is_key; refine (stored_written _ _ _ _ _ _ _ _ W); vm_compute; reflexivity|].
  apply (stored_other _ _ _ _ _ _ _ _ W); rewrite ready_is_key; [intros X; apply (keys_differ u); congruence|discriminate].
Qed.
Lemma set_ready_phase s u w n b s' r : set_ready s u w n b = Ok (s', r) -> sc_phase s' = sc_phase s.
Proof. intros E. destruct (set_ready_cases _ _ _ _ _ _ _ E) as [->|(_ & _ & _ & _ & _ & A & _)]; auto. Qed.

Definition enter (p : nat) (x : xst) : xst := with_scan x (Scan (sc_db (x_scan x)) p (sc_ready (x_scan x)) (sc_reserved (x_scan x))).
Lemma suits_other p n : ~ In p [2; 3; 4; 5] -> suits p n.
Proof. intros H. split; intros I; destruct H; cbn [In] in I |- *; unfold A_SCAN_CURRENT, A_SCAN_POST_CURRENT, A_SCAN_NEXT, A_SCAN_POST_NEXT in I; lia. Qed.
Ltac num := unfold A_INIT, A_SCAN_PRE, A_SCAN_CURRENT, A_SCAN_NEXT, A_SCAN_POST_CURRENT, A_SCAN_POST_NEXT, A_EXIT, REMOVE_INIT, REMOVE_CURRENT, REMOVE_EXIT, B_INIT, B_ACTION_CURRENT, B_ACTION_NEXT, B_EXIT, PHASE_ERROR in *;
  cbn [In] in *; try lia.
(* the plain phases: block modules, then the type module; y is the state after the checks *)
Lemma bt_ran e p x y m x' r : keeps_phase e -> p <= 14 -> exits p = false -> p <> 0 -> p <> 7 -> p <> 8 -> p <> 3 -> (forall y z, frame y z -> m z = m y) ->
  sc_phase (x_scan y) = p -> frame x y -> x_calls y = x_calls x -> suits p (sc_ready (x_scan y)) ->
  (sc_db (x_scan y) = sc_db (x_scan x)
   \/ p = A_SCAN_CURRENT /\ x_current x = None /\ sc_ready (x_scan y) = RDY_PUBLIC /\ stored (sc_db (x_scan y)) (ready_key (dev_id (e_ucmd e))) = RDY_PUBLIC) ->
  (forall z, type_mods p z = opt_list (m z)) -> blocks_type e y m = Ok (x', r) -> ran_phase e p x x' r.
Proof.
  intros K L X N0 N7 N8 N3 M P F C S D T E. apply bt_lemma in E as (bs & ts & E1 & E2 & E3 & E4 & E5 & E6 & E7); [|exact K|intros z; apply M].
  rewrite P in E2, E3, E4. exists bs, ts, (x_scan y), (x_scan x'). rewrite X. cbv zeta. rewrite <- C. split; [exact E1|]. split; [exact E2|]. split; [exact E3|].
  split; [rewrite T; exact E4|]. split; [exact S|]. split; [intros I; exfalso; num|]. assert (F' := frame_trans _ _ _ F E5). split; [intros _; split; [apply F'|exact D]|].
  split; [intros _; apply F'|]. split; [intros I; exfalso; num|]. split; [reflexivity|]. split; [intros _; exact E7|]. intros I; exfalso; num.
Qed.
Lemma tb_ran e p x y r : keeps_phase e -> exits p = true -> type_blocks e (enter p x) = Ok (y, r) ->
  forall x', x_calls x' = x_calls y -> frame x x' -> (p <> A_EXIT -> x_scan x' = x_scan y) -> ran_phase e p x x' r.
Proof.
  intros K X E x' C F S. apply tb_lemma in E as (bs & ts & E1 & E2 & E3 & E4 & E5 & E6 & E7); [|exact K]. cbn [enter with_scan x_scan x_calls sc_phase] in E1, E2, E3, E4.
  assert (R : p = 6 \/ p = 9 \/ p = 13) by (unfold exits, A_EXIT, REMOVE_EXIT, B_EXIT in X; lia).
  eexists bs, ts, _, (x_scan y). rewrite X. cbv zeta. rewrite C. split; [exact E1|]. split; [exact E2|]. split; [exact E3|]. split.
  { replace (type_mods p x') with (opt_list (x_current x')) by (destruct R as [->|[->| ->]]; reflexivity). rewrite (proj1 F), E4, (proj1 E5). reflexivity. }
  split; [apply suits_other; num|]. split; [intros I; exfalso; num|]. split; [intros _; split; [apply F|left; reflexivity]|]. split; [intros _; apply F|].
  split; [intros I; exfalso; num|]. split; [intros I _; symmetry; apply S, I|]. split; [intros _; exact E7|]. intros I; exfalso; num.
Qed.

Lemma init_ran e p x x' r : keeps_phase e -> p = 0 \/ p = 7 -> common_scan_init e (enter p x) = Ok (x', r) ->
  x_iter x' = true /\ ran_phase e p x x' r
  \/ no_calls x x' /\ x_iter x' = false /\ r = (-1)%Z /\ e_prepare e (x_scan (enter p x)) = Ok (x_scan x', None).
Proof.
  intros K P E. unfold common_scan_init in E. destruct (e_prepare e (x_scan (enter p x))) as [[s o]|] eqn:PR; [|discriminate]. cbn [obind] in E.
  assert (SP : sc_phase s = p) by (rewrite (proj2 K _ _ _ PR); reflexivity).
  destruct o as [cur|]; [|injection E as <- <-; right; repeat split]. left.
  destruct (exec_block_mods e _ false) as [[x1 q]|] eqn:B; [|discriminate]. cbn [obind] in E.
  apply blocks_lemma in B as (bs & B1 & B2 & B3 & B4 & _); [|exact K]. cbn [x_scan x_calls] in B1, B2, B3. rewrite SP in B2, B3.
  assert (P1 : sc_phase (x_scan x1) = p) by (eapply did_phase; eauto).
  apply type_lemma in E as (ts & T1 & T2 & T3 & T4 & T5). cbn [x_scan x_calls] in T1, T2, T3. rewrite P1 in T2, T3.
  split; [apply T4|]. exists bs, ts, s, (x_scan x'). assert (X : exits p = false) by (destruct P as [-> | ->]; reflexivity). rewrite X. cbv zeta.
  split; [rewrite T1, B1, app_assoc; reflexivity|]. split; [eapply did_app; eauto|]. split; [exact B3|].
  split; [replace (type_mods p x') with (opt_list (x_current x')) by (destruct P as [-> | ->]; reflexivity); rewrite (proj1 T4); exact T3|].
  split; [apply suits_other; num|]. split; [intros _; exists cur; split; [exact PR|apply T4]|]. split; [intros I; exfalso; num|].
  split; [intros _; rewrite (proj1 (proj2 T4)); apply B4|]. split; [intros I; exfalso; num|]. split; [reflexivity|]. split; [intros _; exact T5|]. intros I; exfalso; num.
Qed.
Lemma in_current n : in_current_set n = true <-> In n [RDY_PRIVATE; RDY_FLAT; RDY_PUBLIC].
Proof. unfold in_current_set. cbn [In]. lia. Qed.
Lemma suits_current p n : p = 2 \/ p = 4 -> (suits p n <-> in_current_set n = true).
Proof. intros P. rewrite in_current. unfold suits. split; [intros (A & _); apply A; num|]. intros H. split; [intros _; exact H|]. intros I; exfalso; num. Qed.
Lemma suits_next p n : p = 3 \/ p = 5 -> (suits p n <-> n = RDY_PUBLIC).
Proof. intros P. unfold suits. split; [intros (_ & A); apply A; num|]. intros H. split; [intros I; exfalso; num|]. intros _; exact H. Qed.

Definition unfit (e : env) (p : nat) (x : xst) : Prop :=
  reads_ready (x_scan x) (e_ucmd e) ->
  let n := stored (sc_db (x_scan x)) (ready_key (dev_id (e_ucmd e))) in ~ suits p n /\ (p = A_SCAN_CURRENT -> n = RDY_UNPROCESSED -> x_current x <> None).
Definition fit (e : env) (p : nat) (x : xst) : Prop :=
  reads_ready (x_scan x) (e_ucmd e) ->
  let n := stored (sc_db (x_scan x)) (ready_key (dev_id (e_ucmd e))) in suits p n \/ (p = A_SCAN_CURRENT /\ n = RDY_UNPROCESSED /\ x_current x = None).
Lemma reads_enter e p x : reads_ready (x_scan (enter p x)) (e_ucmd e) <-> reads_ready (x_scan x) (e_ucmd e).
Proof. split; intros H; exact H. Qed.

Lemma phase_lemma e p x x' r : keeps_phase e -> p <= 14 -> exec_phase e p x = Ok (x', r) ->
  ran_phase e p x x' r /\ fit e p x /\ x_iter x' = (if (p =? 0) || (p =? 7) then true else if p =? 13 then false else x_iter x) /\ (In p [0; 7] \/ x_iter x = true)
  \/ no_calls x x' /\ frame x x' /\ r = 1%Z /\ In p [2; 3; 4; 5] /\ unfit e p x /\ sc_db (x_scan x') = sc_db (x_scan x)
  \/ no_calls x x' /\ x_iter x' = false /\ r = (-1)%Z /\ In p [0; 7] /\ e_prepare e (x_scan (enter p x)) = Ok (x_scan x', None).
Proof.
  intros K L E. unfold exec_phase in E. fold (enter p x) in E.
  assert (FE : frame x (enter p x)) by (repeat split). assert (CE : x_calls (enter p x) = x_calls x) by reflexivity.
  assert (PE : sc_phase (x_scan (enter p x)) = p) by reflexivity. assert (DE : sc_db (x_scan (enter p x)) = sc_db (x_scan x)) by reflexivity.
  assert (FIT : ~ In p [2; 3; 4; 5] -> fit e p x) by (intros I _; left; apply suits_other, I).
  assert (BT : forall m, exits p = false -> ~ In p [0; 2; 3; 4; 5; 7; 8] -> (forall y z, frame y z -> m z = m y) -> (forall z, type_mods p z = opt_list (m z)) -> p <> 13 ->
     blocks_type e (enter p x) m = Ok (x', r) -> ran_phase e p x x' r /\ fit e p x /\ x_iter x' = (if (p =? 0) || (p =? 7) then true else if p =? 13 then false else x_iter x) /\ (In p [0; 7] \/ x_iter x = true)).
  { intros m X I M T N13 B. split; [apply (bt_ran e p x (enter p x) m); auto; try (intros ->; apply I; cbn [In]; lia); try (apply suits_other; intros J; apply I; cbn [In] in J |- *; lia)|].
    split; [apply FIT; intros J; apply I; cbn [In] in J |- *; lia|]. apply bt_lemma in B as (_ & _ & _ & _ & _ & _ & F & It & _); [|exact K|intros; apply M; assumption].
    split; [|right; exact It]. replace ((p =? 0) || (p =? 7)) with false by (cbn [In] in I; lia). replace (p =? 13) with false by lia. apply F. }
  assert (CUR : forall y z, frame y z -> x_current z = x_current y) by (intros y z F; apply F).
  assert (NXT : forall y z, frame y z -> x_next z = x_next y) by (intros y z F; apply F).
  assert (INIT : (p = 0 \/ p = 7) -> common_scan_init e (enter p x) = Ok (x', r) -> 
     ran_phase e p x x' r /\ fit e p x /\ x_iter x' = (if (p =? 0) || (p =? 7) then true else if p =? 13 then false else x_iter x) /\ (In p [0; 7] \/ x_iter x = true)
     \/ no_calls x x' /\ x_iter x' = false /\ r = (-1)%Z /\ In p [0; 7] /\ e_prepare e (x_scan (enter p x)) = Ok (x_scan x', None)).
  { intros P H. destruct (init_ran e p x x' r K P H) as [(A & B)|(A & B & C & D)].
    - left. split; [exact B|]. split; [apply FIT; cbn [In]; lia|]. replace ((p =? 0) || (p =? 7)) with true by lia. split; [exact A|]. left. cbn [In]. lia.
    - right. repeat (split; auto). cbn [In]. lia. }
  assert (GATE : forall m, p = 4 /\ m = x_current \/ p = 5 /\ m = x_next -> forall y n, ready_of e (enter p x) = Ok (y, n) ->
      (if p =? 4 then in_current_set n else (n =? RDY_PUBLIC)%N) = true -> blocks_type e y m = Ok (x', r) ->
      ran_phase e p x x' r /\ fit e p x /\ x_iter x' = x_iter x /\ x_iter x = true).
  { intros m P y n Y G B. apply ready_of_lemma in Y as (Y1 & Y2 & Y3 & Y4 & Y5 & Y6 & Y7).
    assert (SU : suits p n) by (destruct P as [(-> & _)|(-> & _)]; cbn [Nat.eqb] in G; [apply suits_current; auto|apply suits_next; [auto|lia]]).
    assert (MM : forall a b, frame a b -> m b = m a) by (destruct P as [(_ & ->)|(_ & ->)]; assumption).
    assert (FY := frame_trans _ _ _ FE Y3).
    split; [|split].
    - apply (bt_ran e p x y m); try (destruct P as [(-> & _)|(-> & _)]; clear; (reflexivity || lia)); try assumption; try congruence.
      + left. congruence. + destruct P as [(-> & ->)|(-> & ->)]; reflexivity.
    - intros R. left. rewrite reads_enter in Y7. rewrite <- DE, <- (Y7 R). exact SU.
    - apply bt_lemma in B as (_ & _ & _ & _ & _ & _ & F & It & _); [|exact K|intros; apply MM; assumption].
      rewrite (proj2 (proj2 F)), It. split; [|rewrite <- (proj2 (proj2 FY)); exact It]. rewrite <- (proj2 (proj2 FY)). auto. }
  assert (SKIP : forall y n, p = 3 \/ p = 4 \/ p = 5 -> ready_of e (enter p x) = Ok (y, n) -> (if p =? 4 then in_current_set n else (n =? RDY_PUBLIC)%N) = false -> x' = y -> r = 1%Z ->
      no_calls x x' /\ frame x x' /\ r = 1%Z /\ In p [2; 3; 4; 5] /\ unfit e p x /\ sc_db (x_scan x') = sc_db (x_scan x)).
  { intros y n P Y G -> ->. apply ready_of_lemma in Y as (Y1 & Y2 & Y3 & Y4 & Y5 & Y6 & Y7). split; [unfold no_calls; congruence|].
    split; [exact (frame_trans _ _ _ FE Y3)|]. split; [reflexivity|]. split; [cbn [In]; lia|]. split; [|congruence].
    intros R. rewrite reads_enter in Y7. rewrite <- DE, <- (Y7 R). split; [|unfold A_SCAN_CURRENT; lia]. intros SU.
    destruct P as [P|[P|P]]; rewrite P in G, SU; cbn [Nat.eqb] in G.
    - apply suits_next in SU; [|auto]. lia.
    - apply suits_current in SU; [|auto]. congruence.
    - apply suits_next in SU; [|auto]. lia. }
  assert (TB : exits p = true -> p <> 6 -> p <> 13 -> type_blocks e (enter p x) = Ok (x', r) ->
     ran_phase e p x x' r /\ fit e p x /\ x_iter x' = (if (p =? 0) || (p =? 7) then true else if p =? 13 then false else x_iter x) /\ (In p [0; 7] \/ x_iter x = true)).
  { intros X N6 N13 T. assert (T' := T). apply tb_lemma in T' as (_ & _ & _ & _ & _ & _ & F & It & _); [|exact K]. split; [apply (tb_ran e p x x' r K X T); auto; apply (frame_trans _ _ _ FE F)|].
    split; [apply FIT; unfold exits, A_EXIT, REMOVE_EXIT, B_EXIT in X; cbn [In]; lia|]. split; [|right; exact It].
    replace ((p =? 0) || (p =? 7)) with false by (unfold exits, A_EXIT, REMOVE_EXIT, B_EXIT in X; lia). replace (p =? 13) with false by lia. apply F. }
  destruct p as [|[|[|[|[|[|[|[|[|[|[|[|[|[|[|p]]]]]]]]]]]]]]].
  - destruct (INIT (or_introl eq_refl) E) as [H|H]; auto.
  - left. apply (BT x_current); auto; cbn [In]; lia.
  - (* A_CURRENT *)
    unfold a_current in E. destruct (ready_of e (enter 2 x)) as [[y n]|] eqn:Y; [|discriminate]. cbn [obind] in E.
    apply ready_of_lemma in Y as (Y1 & Y2 & Y3 & Y4 & Y5 & Y6 & Y7). rewrite reads_enter in Y7. cbn [enter with_scan x_scan sc_phase sc_db] in Y1, Y2, Y7. change (x_calls (enter 2 x)) with (x_calls x) in Y4.
    assert (FY := frame_trans _ _ _ FE Y3).
    destruct ((n =? RDY_UNPROCESSED)%N && match x_current y with None => true | Some _ => false end) eqn:U.
    + destruct (set_ready (x_scan y) (e_ucmd e) OWNER_CORE RDY_PUBLIC false) as [[s q]|] eqn:W; [|discriminate]. cbn [obind] in E.
      apply andb_prop in U as (U1 & U2). apply N.eqb_eq in U1. destruct (x_current y) eqn:CY; [discriminate|].
      apply to_public in W as (-> & W1 & W2 & W3 & W4 & _); [|rewrite Y2; unfold may_set_ready; num; auto|congruence].
      cbn [Z.ltb Z.compare] in E. change (in_current_set RDY_PUBLIC) with true in E. cbv iota in E. left.
      assert (CX : x_current x = None) by (rewrite <- (proj1 FY); exact CY).
      split; [|split].
      * apply (bt_ran e 2 x (with_scan y s) x_current); auto; try (clear; lia); try (cbn [with_scan x_scan]; congruence).
        -- apply suits_current; [auto|]. cbn [with_scan x_scan]. rewrite W1. reflexivity.
      * intros R. right. rewrite <- (Y7 R). auto.
      * apply bt_lemma in E as (_ & _ & _ & _ & _ & _ & F & It & _); [|exact K|intros; apply CUR; assumption]. cbn [Nat.eqb orb]. rewrite (proj2 (proj2 F)). cbn [with_scan x_iter] in It |- *.
        rewrite <- (proj2 (proj2 FY)). auto.
    + cbn [obind] in E. destruct (in_current_set n) eqn:G.
      * left. split; [|split].
        -- apply (bt_ran e 2 x y x_current); auto; try (clear; lia). apply suits_current; [auto|]. rewrite Y5. exact G.
        -- intros R. left. rewrite <- (Y7 R). apply suits_current; auto.
        -- apply bt_lemma in E as (_ & _ & _ & _ & _ & _ & F & It & _); [|exact K|intros; apply CUR; assumption]. cbn [Nat.eqb orb]. rewrite (proj2 (proj2 F)).
           rewrite <- (proj2 (proj2 FY)). auto.
      * right. left. injection E as <- <-. split; [exact Y4|]. split; [exact FY|]. split; [reflexivity|]. split; [cbn [In]; auto|]. split; [|exact Y1].
        intros R. rewrite <- (Y7 R). split; [rewrite suits_current by auto; congruence|]. intros _ Hn Hc. rewrite Hn, (proj1 FY), Hc in U. discriminate U.
  - (* A_NEXT *)
    unfold a_next in E. destruct (ready_of e (enter 3 x)) as [[y n]|] eqn:Y; [|discriminate]. cbn [obind] in E.
    destruct (n =? RDY_PUBLIC)%N eqn:G.
    + left. apply ready_of_lemma in Y as (Y1 & Y2 & Y3 & Y4 & Y5 & Y6 & Y7). rewrite reads_enter in Y7. cbn [enter with_scan x_scan sc_phase sc_db] in Y1, Y2, Y7. change (x_calls (enter 3 x)) with (x_calls x) in Y4.
      assert (FY := frame_trans _ _ _ FE Y3).
      destruct (exec_block_mods e y false) as [[x1 q]|] eqn:B; [|discriminate]. cbn [obind] in E.
      apply blocks_lemma in B as (bs & B1 & B2 & B3 & B4 & B5); [|exact K]. rewrite Y2 in B2, B3.
      assert (P1 : sc_phase (x_scan x1) = 3) by (eapply did_phase; eauto).
      apply type_lemma in E as (ts & T1 & T2 & T3 & T4 & T5). cbn [x_scan x_calls x_next] in T1, T2, T3. rewrite P1 in T2, T3.
      assert (SU : suits 3 n) by (apply suits_next; [auto|lia]).
      split; [|split].
      * exists bs, ts, (x_scan y), (x_scan x'). cbv zeta. change (exits 3) with false. cbv iota.
        split; [rewrite T1, B1, Y4, app_assoc; reflexivity|]. split; [eapply did_app; eauto|]. split; [exact B3|].
        split; [change (type_mods 3 x') with (opt_list (x_next x')); rewrite (proj1 (proj2 T4)); exact T3|]. split; [rewrite Y5; exact SU|].
        split; [intros I; exfalso; num|]. split; [intros _; split; [rewrite (proj1 T4); cbn [x_current]; rewrite (proj1 B4); apply FY|left; exact Y1]|].
        split; [intros I; exfalso; num|]. split; [intros _; exists (x_scan x1); split; [exact B2|apply (proj1 (proj2 T4))]|]. split; [reflexivity|]. split; [intros _; exact T5|]. intros I; exfalso; num.
      * intros R. left. rewrite <- (Y7 R). exact SU.
      * cbn [Nat.eqb orb]. rewrite (proj2 (proj2 T4)). cbn [x_iter]. rewrite (proj2 (proj2 B4)), <- (proj2 (proj2 FY)). auto.
    + right. left. injection E as <- <-. apply (SKIP y n); auto.
  - unfold a_post_current in E. destruct (ready_of e (enter 4 x)) as [[y n]|] eqn:Y; [|discriminate]. cbn [obind] in E.
    destruct (in_current_set n) eqn:G.
    + left. destruct (GATE x_current (or_introl (conj eq_refl eq_refl)) y n eq_refl G E) as (A1 & A2 & A3 & A4). auto.
    + right. left. injection E as <- <-. apply (SKIP y n); auto.
  - unfold a_post_next in E. destruct (ready_of e (enter 5 x)) as [[y n]|] eqn:Y; [|discriminate]. cbn [obind] in E.
    destruct (n =? RDY_PUBLIC)%N eqn:G.
    + left. destruct (GATE x_next (or_intror (conj eq_refl eq_refl)) y n eq_refl G E) as (A1 & A2 & A3 & A4). auto.
    + right. left. injection E as <- <-. apply (SKIP y n); auto.
  - (* A_EXIT *)
    left. unfold a_exit in E. destruct (type_blocks e (enter 6 x)) as [[x1 q]|] eqn:T; [|discriminate]. cbn [obind] in E.
    assert (T' := T). apply tb_lemma in T' as (bs & ts & _ & D & _ & _ & F & It & _); [|exact K]. cbn [enter with_scan x_scan sc_phase] in D.
    assert (P1 : sc_phase (x_scan x1) = 6) by (eapply did_phase; eauto).
    destruct (ready_of e x1) as [[y n]|] eqn:Y; [|discriminate]. cbn [obind] in E.
    apply ready_of_lemma in Y as (Y1 & Y2 & Y3 & Y4 & Y5 & Y6 & _).
    match type of E with (obind ?c _ = _) => destruct c as [[y1 q1]|] eqn:S1; [|discriminate] end. cbn [obind] in E.
    assert (A1 : q1 = q /\ frame y y1 /\ x_calls y1 = x_calls y /\ sc_phase (x_scan y1) = 6).
    { destruct (n =? RDY_UNPROCESSED)%N eqn:U.
      - destruct (set_ready (x_scan y) (e_ucmd e) OWNER_CORE RDY_PUBLIC false) as [[s z]|] eqn:W; [|discriminate]. cbn [obind] in S1.
        apply to_public in W as (-> & W1 & W2 & _); [|rewrite Y2, P1; unfold may_set_ready; num; auto|apply N.eqb_eq in U; congruence].
        injection S1 as <- <-. cbn [with_scan x_scan x_calls]. split; [reflexivity|]. split; [repeat split|]. split; [reflexivity|]. rewrite W2, Y2. exact P1.
      - injection S1 as <- <-. split; [reflexivity|]. split; [apply frame_refl|]. split; [reflexivity|]. rewrite Y2. exact P1. }
    destruct A1 as (-> & A2 & A3 & A4).
    destruct (get_reserved (x_scan y1) (e_ucmd e) OWNER_CORE 0) as [[s2 n2]|] eqn:G2; [|discriminate]. cbn [obind] in E.
    apply get_reserved_core in G2 as (G3 & G4 & G5 & G6).
    assert (A5 : r = q /\ frame y1 x' /\ x_calls x' = x_calls y1).
    { destruct (n2 =? RES_UNPROCESSED)%N eqn:U.
      - cbn [with_scan x_scan] in E. destruct (set_reserved s2 (e_ucmd e) OWNER_CORE RES_FREE false) as [[s z]|] eqn:W; [|discriminate]. cbn [obind] in E.
        apply to_free in W as (-> & _); [|rewrite G3, A4; unfold may_set_reserved; num; auto|apply N.eqb_eq in U; congruence].
        injection E as <- <-. split; [reflexivity|]. split; [repeat split|reflexivity].
      - injection E as <- <-. split; [reflexivity|]. split; [repeat split|reflexivity]. }
    destruct A5 as (-> & A6 & A7).
    assert (FF := frame_trans _ _ _ FE (frame_trans _ _ _ F (frame_trans _ _ _ Y3 (frame_trans _ _ _ A2 A6)))).
    split; [apply (tb_ran e 6 x x1 q K eq_refl T); [congruence|exact FF|unfold A_EXIT; congruence]|].
    split; [apply FIT; cbn [In]; lia|]. split; [apply FF|right; exact It].
  - destruct (INIT (or_intror eq_refl) E) as [H|H]; auto.
  - (* REMOVE_CURRENT *)
    left. unfold remove_current in E. destruct (blocks_type e (enter 8 x) x_current) as [[x1 q]|] eqn:B; [|discriminate]. cbn [obind] in E.
    apply bt_lemma in B as (bs & ts & E1 & E2 & E3 & E4 & E5 & E6 & E7 & E8); [|exact K|intros; apply CUR; assumption]. rewrite PE in E2, E3, E4.
    assert (A : frame x1 x' /\ x_calls x' = x_calls x1 /\ ((exists c, In c ts /\ result c < 0)%Z /\ r = (-1)%Z /\ x_scan x1 = x_scan x'
                              \/ (~ exists c, In c ts /\ result c < 0)%Z /\ e_deps e (x_scan x1) = Ok (x_scan x', r))).
    { destruct (q <? 0)%Z eqn:Q.
      - injection E as <- <-. split; [apply frame_refl|]. split; [reflexivity|]. left. split; [apply E7; lia|auto].
      - destruct (e_deps e (x_scan x1)) as [[s z]|] eqn:Dp; [|discriminate]. cbn [obind] in E. injection E as <- <-. split; [repeat split|]. split; [reflexivity|].
        right. split; [|reflexivity]. intros H. apply E7 in H. lia. }
    destruct A as (A1 & A2 & A3). assert (FF := frame_trans _ _ _ FE (frame_trans _ _ _ E5 A1)).
    split; [|split; [apply FIT; cbn [In]; lia|split; [apply FF|right; exact E6]]].
    exists bs, ts, (x_scan (enter 8 x)), (x_scan x1). cbv zeta. change (exits 8) with false. cbv iota. rewrite A2. split; [exact E1|]. split; [exact E2|]. split; [exact E3|].
    split; [change (type_mods 8 x') with (opt_list (x_current x')); rewrite (proj1 A1); exact E4|]. split; [apply suits_other; cbn [In]; lia|].
    split; [intros I; exfalso; num|]. split; [intros _; split; [apply FF|left; reflexivity]|]. split; [intros _; apply FF|]. split; [intros I; exfalso; num|].
    split; [intros _ I; exfalso; num|]. split; [intros I; exfalso; num|]. intros _. exact A3.
  - left. apply TB; auto; clear; lia.
  - left. apply (BT x_current); auto; cbn [In]; lia.
  - left. apply (BT x_current); auto; cbn [In]; lia.
  - left. apply (BT x_next); auto; cbn [In]; lia.
  - (* B_EXIT *)
    left. unfold b_exit in E. destruct (type_blocks e (enter 13 x)) as [[x1 q]|] eqn:T; [|discriminate]. cbn [obind] in E. injection E as <- <-.
    assert (T' := T). apply tb_lemma in T' as (bs & ts & T1 & T2 & T3 & T4 & T5 & T6 & T7); [|exact K].
    split; [|split; [apply FIT; cbn [In]; lia|split; [reflexivity|right; exact T6]]].
    exists bs, ts, (x_scan (enter 13 x)), (x_scan x1). cbv zeta. change (exits 13) with true. cbv iota. cbn [x_calls x_scan x_current x_next].
    split; [exact T1|]. split; [exact T2|]. split; [exact T3|]. split; [exact T4|]. split; [apply suits_other; cbn [In]; lia|]. split; [intros I; exfalso; num|].
    split; [intros _; split; [apply T5|left; reflexivity]|]. split; [intros _; apply T5|]. split; [intros I; exfalso; num|]. split; [reflexivity|]. split; [intros _; exact T7|]. intros I; exfalso; num.
  - (* ERROR *)
    left. unfold scan_error in E. destruct (exec_block_mods e (enter 14 x) false) as [[x1 q]|] eqn:B; [|discriminate]. cbn [obind] in E.
    apply blocks_lemma in B as (bs & B1 & B2 & B3 & B4 & B5); [|exact K]. rewrite PE in B2, B3.
    assert (P1 : sc_phase (x_scan x1) = 14) by (eapply did_phase; eauto).
    destruct (exec_type_mod e x1 (x_current x1)) as [[x2 q2]|] eqn:T; [|discriminate]. cbn [obind] in E.
    apply type_lemma in T as (ts & T1 & T2 & T3 & T4 & T5 & T6). rewrite P1 in T2, T3.
    assert (P2 : sc_phase (x_scan x2) = 14) by (eapply did_phase; eauto).
    destruct (exec_type_mod e x2 (x_next x2)) as [[x3 q3]|] eqn:T'; [|discriminate]. cbn [obind] in E. injection E as <- <-.
    apply type_lemma in T' as (us & V1 & V2 & V3 & V4 & V5 & V6). rewrite P2 in V2, V3.
    assert (F3 := frame_trans _ _ _ T4 V4). assert (FF := frame_trans _ _ _ FE (frame_trans _ _ _ B4 F3)).
    split; [|split; [apply FIT; cbn [In]; lia|split; [apply FF|right; exact B5]]].
    exists bs, (ts ++ us), (x_scan (enter 14 x)), (x_scan x3). cbv zeta. change (exits 14) with false. cbv iota.
    split; [rewrite V1, T1, B1, !app_assoc; reflexivity|]. split; [eapply did_app; [exact B2|eapply did_app; eauto]|]. split; [exact B3|].
    split. { rewrite map_app, T3, V3, <- filter_app. change (type_mods 14 x3) with (opt_list (x_current x3) ++ opt_list (x_next x3)).
      rewrite (proj1 F3), (proj1 (proj2 V4)). reflexivity. }
    split; [apply suits_other; cbn [In]; lia|]. split; [intros I; exfalso; num|]. split; [intros _; split; [apply FF|left; reflexivity]|]. split; [intros _; apply FF|].
    split; [intros I; exfalso; num|]. split; [reflexivity|]. split; [|intros I; exfalso; num]. intros _. split; [|destruct ((q2 <? 0)%Z || (q3 <? 0)%Z); auto]. split.
    + intros H. assert (H' : q2 = (-1)%Z \/ q3 = (-1)%Z) by (clear - H T6 V6; destruct ((q2 <? 0)%Z || (q3 <? 0)%Z) eqn:Z; [lia|discriminate]).
      destruct H' as [H'|H']; [apply T5 in H'|apply V5 in H']; destruct H' as (c & I & N); exists c; split; auto; apply in_or_app; auto.
    + intros (c & I & N). apply in_app_or in I as [I|I].
      * assert (q2 = (-1)%Z) as -> by (apply T5; eauto). reflexivity.
      * assert (q3 = (-1)%Z) as -> by (apply V5; eauto). rewrite orb_true_r. reflexivity.
  - exfalso. clear - L. lia.
Qed.

(* A_EXIT leaves no unprocessed state *)
Lemma exit_lemma e x x' r : keeps_phase e -> exec_phase e A_EXIT x = Ok (x', r) ->
  sc_ready (x_scan x') <> RDY_UNPROCESSED /\ sc_reserved (x_scan x') <> RES_UNPROCESSED
  /\ exists s1, (exists cs, did e A_EXIT (x_scan (enter A_EXIT x)) cs s1 /\ x_calls x' = x_calls x ++ cs)
    /\ let k := ready_key (dev_id (e_ucmd e)) in let v := reserved_key (dev_id (e_ucmd e)) in
       (reads_ready s1 (e_ucmd e) -> stored (sc_db x'.(x_scan)) k = if (stored (sc_db s1) k =? RDY_UNPROCESSED)%N then RDY_PUBLIC else stored (sc_db s1) k)
       /\ (knows_reserved s1 (e_ucmd e) -> stored (sc_db x'.(x_scan)) v = if (stored (sc_db s1) v =? RES_UNPROCESSED)%N then RES_FREE else stored (sc_db s1) v).
Proof.
  intros K E. unfold exec_phase in E. fold (enter A_EXIT x) in E. cbn [A_EXIT] in E. unfold a_exit in E. change (enter 6 x) with (enter A_EXIT x) in E.
  destruct (type_blocks e (enter A_EXIT x)) as [[x1 q]|] eqn:T; [|discriminate]. cbn [obind] in E.
  apply tb_lemma in T as (bs & ts & T1 & D & _ & _ & F & It & _); [|exact K]. cbn [enter with_scan x_scan sc_phase x_calls] in D, T1.
  assert (P1 : sc_phase (x_scan x1) = A_EXIT) by (eapply did_phase; eauto).
  destruct (ready_of e x1) as [[y n]|] eqn:Y; [|discriminate]. cbn [obind] in E.
  apply ready_of_lemma in Y as (Y1 & Y2 & Y3 & Y4 & Y5 & Y6 & Y7).
  match type of E with (obind ?c _ = _) => destruct c as [[y1 q1]|] eqn:S1; [|discriminate] end. cbn [obind] in E.
  set (k := ready_key (dev_id (e_ucmd e))) in *. set (v := reserved_key (dev_id (e_ucmd e))) in *.
  assert (A1 : sc_ready (x_scan y1) <> RDY_UNPROCESSED /\ x_calls y1 = x_calls y /\ sc_phase (x_scan y1) = A_EXIT /\ sc_reserved (x_scan y1) = sc_reserved (x_scan y)
    /\ stored (sc_db (x_scan y1)) k = (if (n =? RDY_UNPROCESSED)%N then RDY_PUBLIC else stored (sc_db (x_scan x1)) k)
    /\ stored (sc_db (x_scan y1)) v = stored (sc_db (x_scan x1)) v).
  { destruct (n =? RDY_UNPROCESSED)%N eqn:U.
    - destruct (set_ready (x_scan y) (e_ucmd e) OWNER_CORE RDY_PUBLIC false) as [[s z]|] eqn:W; [|discriminate]. cbn [obind] in S1.
      apply to_public in W as (-> & W1 & W2 & W3 & W4 & W5); [|rewrite Y2, P1; unfold may_set_ready; num; auto|apply N.eqb_eq in U; congruence].
      injection S1 as <- <-. cbn [with_scan x_scan x_calls]. rewrite W1. split; [discriminate|]. split; [reflexivity|]. split; [congruence|]. split; [exact W3|]. split; [exact W4|].
      unfold v. rewrite W5, Y1. reflexivity.
    - injection S1 as <- <-. split; [intros X; apply N.eqb_neq in U; congruence|]. split; [reflexivity|]. split; [congruence|]. split; [reflexivity|]. rewrite Y1. auto. }
  destruct A1 as (A1 & A2 & A3 & A4 & A5 & A6).
  destruct (get_reserved (x_scan y1) (e_ucmd e) OWNER_CORE 0) as [[s2 n2]|] eqn:G2; [|discriminate]. cbn [obind] in E. assert (G2' := G2).
  apply get_reserved_core in G2 as (G3 & G4 & G5 & G6).
  assert (KR : knows_reserved (x_scan x1) (e_ucmd e) -> n2 = stored (sc_db (x_scan x1)) v).
  { intros KR. assert (KY : knows_reserved (x_scan y1) (e_ucmd e)) by (unfold knows_reserved in *; fold v in KR |- *; rewrite A4, Y6, KR, A6; reflexivity).
    destruct (get_reserved_cases _ _ _ _ _ _ G2' KY) as (_ & _ & _ & G). rewrite (G eq_refl). fold v. exact A6. }
  assert (B : sc_ready (x_scan x') = sc_ready (x_scan y1) /\ sc_reserved (x_scan x') <> RES_UNPROCESSED /\ x_calls x' = x_calls y1
    /\ stored (sc_db (x_scan x')) k = stored (sc_db (x_scan y1)) k
    /\ stored (sc_db (x_scan x')) v = (if (n2 =? RES_UNPROCESSED)%N then RES_FREE else stored (sc_db (x_scan y1)) v)).
  { destruct (n2 =? RES_UNPROCESSED)%N eqn:U.
    - cbn [with_scan x_scan] in E. destruct (set_reserved s2 (e_ucmd e) OWNER_CORE RES_FREE false) as [[s z]|] eqn:W; [|discriminate]. cbn [obind] in E.
      apply to_free in W as (-> & W1 & W2 & W3 & W4 & W5); [|rewrite G3, A3; unfold may_set_reserved; num; auto|apply N.eqb_eq in U; congruence].
      injection E as <- <-. cbn [with_scan x_scan x_calls]. split; [congruence|]. split; [rewrite W1; discriminate|]. split; [reflexivity|]. split; [|exact W4].
      unfold k. rewrite W5, G6. reflexivity.
    - injection E as <- <-. cbn [with_scan x_scan x_calls]. split; [exact G4|]. split; [intros X; apply N.eqb_neq in U; congruence|]. split; [reflexivity|]. rewrite G6. auto. }
  destruct B as (B1 & B2 & B3 & B4 & B5). split; [rewrite B1; exact A1|]. split; [exact B2|].
  exists (x_scan x1). split; [exists (ts ++ bs); split; [exact D|congruence]|]. cbv zeta. split.
  - intros R. rewrite B4, A5, (Y7 R). destruct (_ =? _)%N; reflexivity.
  - intros R. rewrite B5, (KR R), A6. destruct (_ =? _)%N; reflexivity.
Qed.

(* Stages *)
Lemma loop_runs e ex pend : pend < 14 -> ex = pend -> forall k fuel a x x' c, a + k = S pend -> phases_loop fuel e ex a pend x = Ok (x', c) ->
  (exists rs, runs e (seq a k) x rs x' /\ Forall passed rs /\ c = 0%Z)
  \/ (exists i rs r, i < k /\ ~ passed r /\ Forall passed rs /\
       (init_or_exit (a + i) = true /\ c = (-1)%Z /\ runs e (seq a (S i)) x (rs ++ [r]) x'
        \/ init_or_exit (a + i) = false /\ c = 0%Z /\ exists r2 r3, runs e (seq a (S i) ++ [PHASE_ERROR; ex]) x (rs ++ [r; r2; r3]) x')).
Proof.
  intros PE EX. induction k as [|k IH]; intros fuel a x x' c Hk E; destruct fuel as [|fuel]; try discriminate E; cbn [phases_loop] in E.
  - replace (a <=? pend) with false in E by lia. injection E as <- <-. left. exists []. split; [constructor|]. auto.
  - replace (a <=? pend) with true in E by lia. destruct (exec_phase e a x) as [[x1 r]|] eqn:P; [|discriminate]. cbn [obind] in E.
    destruct ((r =? 0)%Z || (r =? 1)%Z) eqn:R.
    + assert (PR : passed r) by (apply passed_dec; exact R). apply IH in E; [|lia]. destruct E as [(rs & A & B & C)|(i & rs & q & Hi & N & B & C)].
      * left. exists (r :: rs). split; [cbn [seq]; econstructor; eauto|]. auto.
      * right. exists (S i), (r :: rs), q. replace (a + S i) with (S a + i) by lia. split; [lia|]. split; [exact N|]. split; [auto|]. destruct C as [(C1 & C2 & C3)|(C1 & C2 & r2 & r3 & C3)].
        -- left. split; [exact C1|]. split; [exact C2|]. cbn [seq app]. econstructor; eauto.
        -- right. split; [exact C1|]. split; [exact C2|]. exists r2, r3. cbn [seq app]. econstructor; eauto.
    + assert (NP : ~ passed r) by (rewrite passed_dec; congruence). right. exists 0, [], r. rewrite Nat.add_0_r. split; [lia|]. split; [exact NP|]. split; [constructor|].
      cbn [seq app]. destruct (init_or_exit a) eqn:IE.
      * left. injection E as <- <-. split; [reflexivity|]. split; [reflexivity|]. econstructor; [exact P|constructor].
      * right. split; [reflexivity|]. destruct (exec_phase e PHASE_ERROR x1) as [[x2 r2]|] eqn:P2; [|discriminate]. cbn [obind] in E.
        destruct (exec_phase e ex x2) as [[x3 r3]|] eqn:P3; [|discriminate]. cbn [obind] in E.
        assert (L : phases_loop fuel e ex (S ex) pend x3 = Ok (x', c)) by exact E. destruct fuel; [discriminate|]. cbn [phases_loop] in L.
        replace (S ex <=? pend) with false in L by lia. injection L as <- <-. split; [reflexivity|]. exists r2, r3.
        econstructor; [exact P|]. econstructor; [exact P2|]. econstructor; [exact P3|constructor].
Qed.
Lemma stage_one e a k x x' c : 0 < k -> a + k <= 14 -> (forall i, i < k -> init_or_exit (a + i) = ((i =? 0) || (i =? k - 1))) ->
  phases_loop 16 e (a + k - 1) a (a + k - 1) x = Ok (x', c) -> stage_ran e (seq a k) x x' c.
Proof.
  intros K L IE E. apply (loop_runs e _ _) with (k := k) in E; [|lia|reflexivity|lia].
  destruct E as [H|(i & rs & r & Hi & N & B & C)]; [left; exact H|right].
  assert (SQ : seq a (S i) = seq a i ++ [a + i]) by (rewrite seq_S; reflexivity).
  destruct C as [(C1 & -> & C3)|(C1 & -> & r2 & r3 & C3)]; rewrite (IE i Hi) in C1.
  - left. exists (seq a i), (a + i), (seq (S (a + i)) (k - S i)), rs, r. split; [apply seq_cut, Hi|]. split; [exact B|]. split; [exact N|]. split.
    + destruct (Nat.eq_dec i 0) as [->|]; [left; reflexivity|]. right. replace (k - S i) with 0 by lia. reflexivity.
    + split; [reflexivity|]. rewrite <- SQ. exact C3.
  - right. exists (seq a i), (a + i), (seq (S (a + i)) (k - S i)), rs, r, r2, r3. split; [apply seq_cut, Hi|]. split; [exact B|]. split; [exact N|].
    split; [destruct i; [discriminate C1|discriminate]|]. split; [destruct (k - S i) eqn:Z; [lia|discriminate]|]. split; [reflexivity|].
    rewrite SQ, <- app_assoc in C3. cbn [app] in C3. replace (last (seq a k) 0) with (a + k - 1); [exact C3|].
    rewrite (seq_cut a k (k - 1)) by lia. replace (k - S (k - 1)) with 0 by lia. cbn [seq]. rewrite last_last. lia.
Qed.
Lemma stage_lemma e stage remove x x' c : stage = 1 \/ stage = 2 -> exec_scan e stage remove x = Ok (x', c) -> stage_ran e (stage_phases stage remove) x x' c.
Proof.
  intros [-> | ->]; [destruct remove|]; cbn [exec_scan]; intros E.
  - apply (stage_one e 7 3); [lia|lia| |exact E]. intros [|[|[|i]]] H; [reflexivity|reflexivity|reflexivity|lia].
  - apply (stage_one e 0 7); [lia|lia| |exact E]. intros [|[|[|[|[|[|[|i]]]]]]] H; try reflexivity. lia.
  - replace (stage_phases 2 remove) with (seq 10 4) by (destruct remove; reflexivity). apply (stage_one e 10 4); [lia|lia| |exact E].
    intros [|[|[|[|i]]]] H; reflexivity.
Qed.

(* The iterator over the block modules *)
Lemma runs_iter e : keeps_phase e -> forall ps x rs x', runs e ps x rs x' -> (forall p, In p ps -> p <= 14 /\ ~ In p [0; 7; 13]) -> x_iter x' = x_iter x.
Proof.
  intros K. induction 1 as [x|p ps x x1 r rs x2 E R IH]; intros H; [reflexivity|]. rewrite IH by (intros; apply H; right; assumption).
  destruct (H p (or_introl eq_refl)) as (L & N). destruct (phase_lemma e p x x1 r K L E) as [(_ & _ & I & _)|[(_ & F & _)|(_ & _ & _ & I & _)]].
  - rewrite I. replace ((p =? 0) || (p =? 7)) with false by (cbn [In] in N; lia). replace (p =? 13) with false by (cbn [In] in N; lia). reflexivity.
  - apply F.
  - exfalso. cbn [In] in N, I. lia.
Qed.
Lemma init_iter e p x x' r : keeps_phase e -> p = 0 \/ p = 7 -> exec_phase e p x = Ok (x', r) -> passed r -> x_iter x' = true.
Proof.
  intros K P E R. destruct (phase_lemma e p x x' r K ltac:(lia) E) as [(_ & _ & I & _)|[(_ & _ & _ & I & _)|(_ & _ & -> & _)]].
  - rewrite I. replace ((p =? 0) || (p =? 7)) with true by lia. reflexivity.
  - exfalso. cbn [In] in I. lia.
  - exfalso. destruct R; discriminate.
Qed.
Lemma exit_iter e x x' r : keeps_phase e -> exec_phase e 13 x = Ok (x', r) -> x_iter x' = false.
Proof.
  intros K E. destruct (phase_lemma e 13 x x' r K ltac:(lia) E) as [(_ & _ & I & _)|[(_ & _ & _ & I & _)|(_ & _ & _ & I & _)]]; [exact I|exfalso; cbn [In] in I; lia..].
Qed.
Lemma runs_split e ps qs x rs x' : runs e (ps ++ qs) x rs x' -> exists rs1 rs2 y, rs = rs1 ++ rs2 /\ length rs1 = length ps /\ runs e ps x rs1 y /\ runs e qs y rs2 x'.
Proof.
  revert x rs. induction ps as [|p ps IH]; intros x rs H; cbn [app] in H.
  - exists [], rs, x. split; [reflexivity|]. split; [reflexivity|]. split; [constructor|exact H].
  - inversion H as [|? ? ? x1 r rs' ? E R]; subst. apply IH in R as (rs1 & rs2 & y & -> & L & A & B). exists (r :: rs1), rs2, y.
    split; [reflexivity|]. split; [cbn [length]; congruence|]. split; [econstructor; eauto|exact B].
Qed.
Lemma runs_cons e p ps x l x' : runs e (p :: ps) x l x' -> exists r rs x1, l = r :: rs /\ exec_phase e p x = Ok (x1, r) /\ runs e ps x1 rs x'.
Proof. intros R. inversion R; subst; eauto 10. Qed.
Lemma runs_length e ps x l x' : runs e ps x l x' -> length l = length ps.
Proof. induction 1; cbn [length]; congruence. Qed.
Lemma stage1_iter e remove x x' c : keeps_phase e -> exec_scan e 1 remove x = Ok (x', c) -> c = 0%Z -> x_iter x' = true.
Proof.
  intros K E ->. apply stage_lemma in E; [|auto].
  assert (HD : exists p0 tl, stage_phases 1 remove = p0 :: tl /\ (p0 = 0 \/ p0 = 7) /\ (forall p, In p (tl ++ [PHASE_ERROR; last (stage_phases 1 remove) 0]) -> p <= 14 /\ ~ In p [0; 7; 13])).
  { destruct remove; eexists _, _; (split; [reflexivity|]); (split; [auto|]); intros p I; vm_compute in I; cbn [In]; lia. }
  destruct HD as (p0 & tl & HP & P0 & TL). rewrite HP in E. destruct E as [(rs & R & B & _)|[(pre & p & post & rs & r & _ & _ & _ & _ & X & _)|(pre & p & post & rs & r & r2 & r3 & Q & B & N & N1 & N2 & _ & R)]].
  - inversion R as [|? ? ? x1 r rs' ? E1 R1]; subst. inversion B; subst. rewrite (runs_iter e K _ _ _ _ R1); [eapply init_iter; eauto|]. intros p I. apply TL, in_or_app. auto.
  - discriminate.
  - destruct pre as [|q pre]; [congruence|]. cbn [app] in Q, R. injection Q as <- Q. apply runs_cons in R as (r1 & rs' & x1 & H & E1 & R1).
    assert (PR : passed r1).
    { destruct rs as [|r0 rs]; cbn [app] in H; [|injection H as <- H; inversion B; assumption]. exfalso.
      apply runs_length in R1. injection H as _ <-. rewrite app_length in R1. cbn [length] in R1. lia. }
    rewrite (runs_iter e K _ _ _ _ R1); [eapply init_iter; eauto|]. intros z I. apply TL. rewrite HP, Q. apply in_app_or in I as [I|[<-|I]].
    + apply in_or_app. left. apply in_or_app. auto.
    + apply in_or_app. left. apply in_or_app. right. left. reflexivity.
    + apply in_or_app. right. rewrite <- Q. exact I.
Qed.
Lemma loop_step fuel e ex a pend x : a <= pend -> phases_loop (S fuel) e ex a pend x =
  (let! (x, r) := exec_phase e a x in
   if (r =? 0)%Z || (r =? 1)%Z then phases_loop fuel e ex (S a) pend x
   else if init_or_exit a then Ok (x, (- 1)%Z)
   else let! (x, _) := exec_phase e PHASE_ERROR x in
        let! (x, _) := exec_phase e ex x in phases_loop fuel e ex (S ex) pend x).
Proof. intros H. cbn [phases_loop]. replace (a <=? pend) with true by lia. reflexivity. Qed.
Lemma stage2_iter e remove x x' c : keeps_phase e -> exec_scan e 2 remove x = Ok (x', c) ->
  x_iter x = true /\ (c = 0%Z -> x_iter x' = false)
  /\ (c = (-1)%Z -> x_iter x' = false \/ exists r, exec_phase e B_INIT x = Ok (x', r) /\ ~ passed r /\ x_iter x' = true).
Proof.
  intros K E. assert (E0 := E). apply stage_lemma in E; [|auto]. replace (stage_phases 2 remove) with [10; 11; 12; 13] in E by (destruct remove; reflexivity).
  assert (IX : forall y r, exec_phase e 10 x = Ok (y, r) -> x_iter x = true /\ x_iter y = true).
  { intros y r H. destruct (phase_lemma e 10 x y r K ltac:(lia) H) as [(_ & _ & I & J)|[(_ & _ & _ & I & _)|(_ & _ & _ & I & _)]]; [|exfalso; cbn [In] in I; lia..].
    destruct J as [J|J]; [exfalso; cbn [In] in J; lia|]. rewrite I. auto. }
  assert (XI : x_iter x = true).
  { cbn [exec_scan] in E0. rewrite loop_step in E0 by (unfold B_INIT, B_EXIT; lia). destruct (exec_phase e B_INIT x) as [[y r]|] eqn:H; [|discriminate]. apply (IX _ _ H). }
  split; [exact XI|].
  destruct E as [(rs & R & B & ->)|[(pre & p & post & rs & r & Q & B & N & D & -> & R)|(pre & p & post & rs & r & r2 & r3 & Q & B & N & N1 & N2 & -> & R)]].
  - split; [|discriminate]. intros _. change [10; 11; 12; 13] with ([10; 11; 12] ++ [13]) in R. apply runs_split in R as (a & b & y & _ & _ & _ & R).
    inversion R as [|? ? ? x1 ? ? ? E1 R1]; subst. inversion R1; subst. eapply exit_iter; eauto.
  - split; [discriminate|]. intros _. apply runs_split in R as (a & b & y & Er & La & R0 & R). inversion R as [|? ? ? x1 q ? ? E1 R1]; subst. inversion R1; subst.
    destruct D as [-> | ->].
    + cbn [app] in Q. injection Q as <- _. inversion R0; subst. right. exists q. split; [exact E1|]. split; [|apply (IX _ _ E1)].
      destruct rs as [|? [|? ?]]; cbn [app] in Er; try discriminate Er. injection Er as <-. exact N.
    + left. assert (p = 13). { destruct pre as [|? [|? [|? [|? [|? pre]]]]]; cbn [app] in Q; try discriminate Q. congruence. } subst p. eapply exit_iter; eauto.
  - split; [|discriminate]. intros _. rewrite <- app_comm_cons in R || idtac. change (pre ++ [p; PHASE_ERROR; last [10; 11; 12; 13] 0]) with (pre ++ [p; PHASE_ERROR] ++ [13]) in R.
    rewrite app_assoc in R. apply runs_split in R as (a & b & y & _ & _ & _ & R). inversion R as [|? ? ? x1 ? ? ? E1 R1]; subst. inversion R1; subst. eapply exit_iter; eauto.
Qed.
Lemma stage2_no_iter e remove x : x_iter x = false -> exec_scan e 2 remove x = UB.
Proof.
  intros H. cbn [exec_scan]. rewrite loop_step by (unfold B_INIT, B_EXIT; lia). unfold exec_phase at 1. cbn [B_INIT]. unfold blocks_type, exec_block_mods. cbn [with_scan x_iter]. rewrite H. reflexivity.
Qed.

(* nothing undefined in the second stage *)
Lemma call_defined e x m : defined e -> exists x' r, call_fn e x m = Ok (x', r) /\ x_iter x' = x_iter x.
Proof.
  intros D. unfold call_fn. destruct (e_fn e m _) as [f|] eqn:F; [|eauto]. specialize (D _ _ _ (x_scan x) F). destruct (f (x_scan x)) as [[s r]|]; [|congruence].
  cbn [obind]. eexists _, _. split; reflexivity.
Qed.
Lemma loop_defined e l : defined e -> forall x, exists x' r, block_loop e x l = Ok (x', r) /\ x_iter x' = x_iter x.
Proof.
  intros D. induction l as [|m l IH]; intros x; cbn [block_loop]; [eauto|]. destruct (call_defined e x m D) as (x1 & r & -> & I). cbn [obind].
  destruct (r <? 0)%Z; [eauto|]. destruct (IH x1) as (x2 & q & -> & J). exists x2, q. split; [reflexivity|congruence].
Qed.
Lemma type_defined e x m : defined e -> exists x' r, exec_type_mod e x m = Ok (x', r) /\ x_iter x' = x_iter x.
Proof.
  intros D. unfold exec_type_mod. destruct m as [m|]; [|eauto]. destruct (call_defined e x m D) as (x1 & r & -> & I). cbn [obind]. eauto.
Qed.
Lemma bdefined e x rv : defined e -> x_iter x = true -> exists x' r, exec_block_mods e x rv = Ok (x', r) /\ x_iter x' = true.
Proof. intros D I. unfold exec_block_mods. rewrite I. destruct (loop_defined e (if rv then rev (e_blocks e) else e_blocks e) D x) as (x' & r & E & J). exists x', r. split; [exact E|congruence]. Qed.
Lemma bt_defined e x m : defined e -> x_iter x = true -> exists x' r, blocks_type e x m = Ok (x', r) /\ x_iter x' = true.
Proof.
  intros D I. unfold blocks_type. destruct (bdefined e x false D I) as (x1 & r1 & -> & I1). cbn [obind]. destruct (type_defined e x1 (m x1) D) as (x2 & r2 & -> & I2). exists x2, r2. split; [reflexivity|congruence].
Qed.
Lemma tb_defined e x : defined e -> x_iter x = true -> exists x' r, type_blocks e x = Ok (x', r) /\ x_iter x' = true.
Proof.
  intros D I. unfold type_blocks. destruct (type_defined e x (x_current x) D) as (x1 & r1 & -> & I1). cbn [obind]. rewrite I in I1.
  destruct (bdefined e x1 true D I1) as (x2 & r2 & -> & I2). cbn [obind]. eauto.
Qed.
Lemma phase_defined e p x : defined e -> x_iter x = true -> In p [10; 11; 12; 13; 14] -> exists x' r, exec_phase e p x = Ok (x', r) /\ x_iter x' = negb (p =? 13).
Proof.
  intros D I P. cbn [In] in P. unfold exec_phase. fold (enter p x). assert (I' : x_iter (enter p x) = true) by exact I.
  destruct P as [<-|[<-|[<-|[<-|[<-|[]]]]]]; cbn [Nat.eqb negb].
  - apply (bt_defined e _ x_current D I').
  - apply (bt_defined e _ x_current D I').
  - apply (bt_defined e _ x_next D I').
  - unfold b_exit. destruct (tb_defined e _ D I') as (x1 & r & -> & _). cbn [obind]. eauto.
  - unfold scan_error. destruct (bdefined e _ false D I') as (x1 & r1 & -> & I1). cbn [obind]. destruct (type_defined e x1 (x_current x1) D) as (x2 & r2 & -> & I2). cbn [obind].
    destruct (type_defined e x2 (x_next x2) D) as (x3 & r3 & -> & I3). cbn [obind]. eexists _, _. split; [reflexivity|congruence].
Qed.
Lemma stage2_defined_lemma e remove x : defined e -> x_iter x = true -> exists x' c, exec_scan e 2 remove x = Ok (x', c).
Proof.
  intros D I. cbn [exec_scan].
  assert (H : forall k fuel a y, a + k = 14 -> 10 <= a -> k < fuel -> (a = 14 \/ x_iter y = true) -> exists x' c, phases_loop fuel e B_EXIT a B_EXIT y = Ok (x', c)).
  { induction k as [|k IH]; intros fuel a y A A10 L J; (destruct fuel as [|fuel]; [lia|]); cbn [phases_loop].
    - unfold B_EXIT. replace (a <=? 13) with false by lia. eauto.
    - replace (a <=? B_EXIT) with true by (unfold B_EXIT; lia). destruct J as [J|J]; [lia|]. destruct (phase_defined e a y D J) as (y1 & r & -> & J1); [cbn [In]; lia|]. cbn [obind].
      destruct ((r =? 0)%Z || (r =? 1)%Z).
      + apply IH; [lia|lia|lia|]. destruct (Nat.eq_dec a 13); [left; lia|right]. rewrite J1. replace (a =? 13) with false by lia. reflexivity.
      + destruct (init_or_exit a) eqn:X; [eauto|]. assert (a <> 13) by (intros ->; discriminate X).
        destruct (phase_defined e PHASE_ERROR y1 D) as (y2 & r2 & -> & J2); [rewrite J1; replace (a =? 13) with false by lia; reflexivity|cbn [In]; auto 10|]. cbn [obind].
        destruct (phase_defined e B_EXIT y2 D) as (y3 & r3 & -> & J3); [rewrite J2; reflexivity|cbn [In]; auto 10|]. cbn [obind].
        destruct fuel as [|fuel]; [lia|]. exists y3, 0%Z. reflexivity. }
  apply (H 4); [reflexivity|unfold B_INIT; lia|lia|right; exact I].
Qed.
(* a failing type module of the first phase leaves the iterator *)
Lemma init_leak e p s cur m f x : keeps_phase e -> p = A_INIT \/ p = REMOVE_INIT -> e_prepare e (Scan (sc_db (x_scan x)) p (sc_ready (x_scan x)) (sc_reserved (x_scan x))) = Ok (s, Some cur) ->
  cur = Some m -> defined e -> e_fn e m p = Some f -> (forall s, exists s' r, f s = Ok (s', r) /\ (r < 0)%Z) ->
  exists x', exec_scan e 1 (p =? REMOVE_INIT) x = Ok (x', (-1)%Z) /\ x_iter x' = true.
Proof.
  intros K P PR -> D Fm Ff.
  assert (E : exists x', exec_phase e p x = Ok (x', (-1)%Z) /\ x_iter x' = true).
  { unfold exec_phase. fold (enter p x).
    assert (C : exists x', common_scan_init e (enter p x) = Ok (x', (-1)%Z) /\ x_iter x' = true).
    { unfold common_scan_init. change (e_prepare e (x_scan (enter p x))) with (e_prepare e (Scan (sc_db (x_scan x)) p (sc_ready (x_scan x)) (sc_reserved (x_scan x)))). rewrite PR. cbn [obind].
      set (x0 := Xst s _ _ true _). destruct (bdefined e x0 false D eq_refl) as (x1 & r & B & I). rewrite B. cbn [obind].
      apply blocks_lemma in B as (bs & _ & B2 & _ & _ & _); [|exact K]. assert (P1 : sc_phase (x_scan x1) = p).
      { assert (SP : sc_phase s = p) by (rewrite (proj2 K _ _ _ PR); reflexivity). eapply did_phase; [exact K| |exact SP]. change (sc_phase (x_scan x0)) with (sc_phase s) in B2. rewrite SP in B2. exact B2. }
      unfold exec_type_mod, call_fn. cbn [x_scan]. rewrite P1, Fm. destruct (Ff (x_scan x1)) as (s' & q & -> & Q). cbn [obind].
      replace (q <? 0)%Z with true by lia. eexists. split; reflexivity. }
    destruct P as [-> | ->]; exact C. }
  destruct E as (x' & E & I). exists x'. split; [|exact I].
  destruct P as [-> | ->].
  - change (A_INIT =? REMOVE_INIT) with false. cbn [exec_scan]. rewrite loop_step by (unfold A_INIT, A_EXIT; lia). rewrite E. reflexivity.
  - change (REMOVE_INIT =? REMOVE_INIT) with true. cbn [exec_scan]. rewrite loop_step by (unfold REMOVE_INIT, REMOVE_EXIT; lia). rewrite E. reflexivity.
Qed.
Lemma init_suits p n : In p [0; 7] -> suits p n.
Proof. intros I. apply suits_other. cbn [In] in I |- *. lia. Qed.
Lemma unfit_goes e p x : unfit e p x -> reads_ready (x_scan x) (e_ucmd e) ->
  goes_ahead p (stored (sc_db (x_scan x)) (ready_key (dev_id (e_ucmd e)))) (x_current x) -> False.
Proof. intros U R. destruct (U R) as (A & B). intros [H|(H1 & H2 & H3)]; [exact (A H)|exact (B H1 H2 H3)]. Qed.
Lemma gate_lemma e p x x' r : keeps_phase e -> p <= 14 -> exec_phase e p x = Ok (x', r) -> reads_ready (x_scan x) (e_ucmd e) ->
  let n := stored (sc_db (x_scan x)) (ready_key (dev_id (e_ucmd e))) in
  (~ goes_ahead p n (x_current x) -> no_calls x x' /\ r = 1%Z)
  /\ (goes_ahead p n (x_current x) -> ~ In p [A_INIT; REMOVE_INIT] -> ran_phase e p x x' r).
Proof.
  intros K L E R n. destruct (phase_lemma e p x x' r K L E) as [(A & F & _)|[(A & _ & B & C & U & _)|(A & _ & B & C & _)]].
  - split; [intros N; destruct N; exact (F R)|auto].
  - split; [auto|]. intros G _. destruct (unfit_goes e p x U R G).
  - split; [|intros _ I; destruct I; exact C]. intros N. destruct N. left. apply init_suits, C.
Qed.
