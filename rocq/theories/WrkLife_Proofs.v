(* Proofs about the life of worker proxies. *)
From Verif Require Import Base Wrk_Model WrkLife_Model WrkLife_Spec.

Lemma nth_upd s : forall k j p, nth_error (upd s k p) j = if (k =? j)%nat then (if (j <? length s)%nat then Some p else None) else nth_error s j.
Proof.
  induction s as [|x t IH]; intros k j p; cbn [upd].
  - destruct j; destruct (k =? _)%nat; reflexivity.
  - destruct k as [|k], j as [|j]; try reflexivity. cbn [nth_error Nat.eqb length]. rewrite IH. reflexivity.
Qed.

Lemma nth_some_lt {A} (s : list A) k x : nth_error s k = Some x -> (k <? length s)%nat = true.
Proof. intro H. apply Nat.ltb_lt. apply nth_error_Some. congruence. Qed.

(* What a call or event means for proxy [k]: None when it goes away. *)
Definition after (o : wop) (k : nat) (p : proxy) : option proxy :=
  match o with
  | WNew _ _ _ _ => Some p
  | WSend j found | WClose j found =>
      if (j =? k)%nat then (if p_loop p then Some p else if found then Some (with_state p ASSIGNED) else Some p) else Some p
  | WRef j => if (j =? k)%nat then Some (with_refs p (S (p_refs p))) else Some p
  | WUnref j => if (j =? k)%nat then (if (p_refs p <=? 1)%nat then None else Some (with_refs p (p_refs p - 1))) else Some p
  | WYielded j kill => if (j =? k)%nat then (if kill then Some (with_state p EXITING) else Some p) else Some p
  | WTimeout j _ =>
      if (j =? k)%nat then
        (if p_timer p then Some {| p_pid := p_pid p; p_state := TIMED_OUT; p_loop := p_loop p; p_timer := false; p_sig := p_sig p;
                                   p_child := p_child p; p_refs := p_refs p; p_exit := p_exit p |} else Some p)
      else Some p
  | WChildExit j =>
      if (j =? k)%nat then
        (if p_child p then
           (if (p_refs p <=? 1)%nat then None
            else Some (with_refs {| p_pid := p_pid p; p_state := EXITED; p_loop := p_loop p; p_timer := p_timer p; p_sig := p_sig p;
                                    p_child := false; p_refs := p_refs p; p_exit := p_exit p || p_loop p |} (p_refs p - 1)))
         else Some p)
      else Some p
  end.

(* What one step does to proxy [k]. *)
Lemma step_at s o s' r k p : wstep s o = Ok (s', r) -> nth_error s k = Some (Some p) ->
  nth_error s' k = Some (after o k p).
Proof.
  intros E H. pose proof (nth_some_lt _ _ _ H) as L.
  assert (U : forall j q, nth_error (upd s j q) k = if (j =? k)%nat then Some q else Some (Some p)).
  { intros j q. rewrite nth_upd, L, H. auto. }
  destruct o as [pid lp tm sg|j f|j f|j|j|j kl|j kl|j]; cbn [wstep] in E; cbn [after].
  - injection E as <- _. rewrite nth_error_app1; auto. apply Nat.ltb_lt; auto.
  - destruct (nth_error s j) as [[q|]|] eqn:J; try discriminate. unfold prepare_send in E.
    destruct (Nat.eqb_spec j k) as [-> |N].
    + assert (q = p) by congruence. subst q. destruct (p_loop p); [injection E as <- _; auto|]. destruct f; cbn [negb] in E; injection E as <- _; auto.
      rewrite U, Nat.eqb_refl. auto.
    + destruct (p_loop q); [injection E as <- _; auto|]. destruct f; cbn [negb] in E; injection E as <- _; auto.
      rewrite U. destruct (Nat.eqb_spec j k); [contradiction|auto].
  - destruct (nth_error s j) as [[q|]|] eqn:J; try discriminate. unfold prepare_send in E.
    destruct (Nat.eqb_spec j k) as [-> |N].
    + assert (q = p) by congruence. subst q. destruct (p_loop p); [injection E as <- _; auto|]. destruct f; cbn [negb] in E; injection E as <- _; auto.
      rewrite U, Nat.eqb_refl. auto.
    + destruct (p_loop q); [injection E as <- _; auto|]. destruct f; cbn [negb] in E; injection E as <- _; auto.
      rewrite U. destruct (Nat.eqb_spec j k); [contradiction|auto].
  - destruct (nth_error s j) as [[q|]|] eqn:J; try discriminate. injection E as <- _. rewrite U.
    destruct (Nat.eqb_spec j k) as [-> |N]; auto. assert (q = p) by congruence. subst q. auto.
  - destruct (nth_error s j) as [[q|]|] eqn:J; try discriminate. injection E as <- _. unfold unref_proxy. rewrite U.
    destruct (Nat.eqb_spec j k) as [-> |N]; auto. assert (q = p) by congruence. subst q. auto.
  - destruct (nth_error s j) as [[q|]|] eqn:J; injection E as <- _.
    + destruct (Nat.eqb_spec j k) as [-> |N].
      * assert (q = p) by congruence. subst q. destruct kl; cbn; auto. rewrite U, Nat.eqb_refl. auto.
      * cbn. destruct kl; auto. rewrite U. destruct (Nat.eqb_spec j k); [contradiction|auto].
    + destruct (Nat.eqb_spec j k) as [-> |N]; [congruence|auto].
    + destruct (Nat.eqb_spec j k) as [-> |N]; [congruence|auto].
  - destruct (nth_error s j) as [[q|]|] eqn:J.
    + destruct (Nat.eqb_spec j k) as [-> |N].
      * assert (q = p) by congruence. subst q. cbn. destruct (p_timer p); injection E as <- _; auto. rewrite U, Nat.eqb_refl. auto.
      * cbn. destruct (p_timer q); injection E as <- _; auto. rewrite U. destruct (Nat.eqb_spec j k); [contradiction|auto].
    + injection E as <- _. destruct (Nat.eqb_spec j k) as [-> |N]; [congruence|auto].
    + injection E as <- _. destruct (Nat.eqb_spec j k) as [-> |N]; [congruence|auto].
  - destruct (nth_error s j) as [[q|]|] eqn:J.
    + destruct (Nat.eqb_spec j k) as [-> |N].
      * assert (q = p) by congruence. subst q. cbn. destruct (p_child p); injection E as <- _; auto.
        unfold unref_proxy. cbn [p_refs]. rewrite U, Nat.eqb_refl. auto.
      * cbn. destruct (p_child q); injection E as <- _; auto. unfold unref_proxy. rewrite U. destruct (Nat.eqb_spec j k); [contradiction|auto].
    + injection E as <- _. destruct (Nat.eqb_spec j k) as [-> |N]; [congruence|auto].
    + injection E as <- _. destruct (Nat.eqb_spec j k) as [-> |N]; [congruence|auto].
Qed.

(* A proxy that is gone stays gone, and a new one comes at the end. *)
Lemma step_length s o s' r : wstep s o = Ok (s', r) -> length s' = (length s + match o with WNew _ _ _ _ => 1 | _ => 0 end)%nat.
Proof.
  assert (U : forall s k p, length (upd s k p) = length s).
  { induction s0 as [|x t IH]; intros [|k] p; cbn; auto. }
  destruct o as [pid lp tm sg|j f|j f|j|j|j kl|j kl|j]; cbn [wstep]; rewrite ?Nat.add_0_r.
  - intro E. injection E as <- _. rewrite app_length. auto.
  - destruct (nth_error s j) as [[q|]|]; try discriminate. unfold prepare_send. destruct (p_loop q), f; cbn [negb]; intro E; injection E as <- _; auto.
  - destruct (nth_error s j) as [[q|]|]; try discriminate. unfold prepare_send. destruct (p_loop q), f; cbn [negb]; intro E; injection E as <- _; auto.
  - destruct (nth_error s j) as [[q|]|]; try discriminate. intro E; injection E as <- _; auto.
  - destruct (nth_error s j) as [[q|]|]; try discriminate. intro E; injection E as <- _; unfold unref_proxy; auto.
  - destruct (nth_error s j) as [[q|]|]; try destruct kl; intro E; injection E as <- _; auto.
  - destruct (nth_error s j) as [[q|]|]; try destruct (p_timer q); intro E; injection E as <- _; auto.
  - destruct (nth_error s j) as [[q|]|]; try destruct (p_child q); intro E; injection E as <- _; unfold unref_proxy; auto.
Qed.

Lemma step_new s o s' r k q : wstep s o = Ok (s', r) -> nth_error s k = None -> nth_error s' k = Some q ->
  exists pid lp tm sg, o = WNew pid lp tm sg /\ k = length s /\
    q = Some {| p_pid := pid; p_state := NEW; p_loop := lp; p_timer := tm; p_sig := sg; p_child := true; p_refs := 1; p_exit := false |}.
Proof.
  intros E H H'. pose proof (step_length _ _ _ _ E) as L. apply nth_error_None in H.
  assert (L2 : (k < length s')%nat) by (apply nth_error_Some; congruence).
  destruct o as [pid lp tm sg|j f|j f|j|j|j kl|j kl|j]; try lia.
  cbn [wstep] in E. injection E as <- _. rewrite nth_error_app2 in H' by lia. assert (k = length s) by lia. subst k.
  rewrite Nat.sub_diag in H'. injection H' as <-. eauto 10.
Qed.

Lemma step_dead s o s' r k : wstep s o = Ok (s', r) -> nth_error s k = Some None -> nth_error s' k = Some None.
Proof.
  intros E H. pose proof (nth_some_lt _ _ _ H) as L.
  assert (U : forall j q (x : proxy), nth_error s j = Some (Some x) -> nth_error (upd s j q) k = Some None).
  { intros j q x J. rewrite nth_upd. destruct (Nat.eqb_spec j k) as [-> |N]; [congruence|auto]. }
  destruct o as [pid lp tm sg|j f|j f|j|j|j kl|j kl|j]; cbn [wstep] in E.
  - injection E as <- _. rewrite nth_error_app1; auto. apply Nat.ltb_lt; auto.
  - destruct (nth_error s j) as [[q|]|] eqn:J; try discriminate. unfold prepare_send in E. destruct (p_loop q), f; cbn [negb] in E; injection E as <- _; eauto.
  - destruct (nth_error s j) as [[q|]|] eqn:J; try discriminate. unfold prepare_send in E. destruct (p_loop q), f; cbn [negb] in E; injection E as <- _; eauto.
  - destruct (nth_error s j) as [[q|]|] eqn:J; try discriminate. injection E as <- _; eauto.
  - destruct (nth_error s j) as [[q|]|] eqn:J; try discriminate. injection E as <- _; unfold unref_proxy; eauto.
  - destruct (nth_error s j) as [[q|]|] eqn:J; try destruct kl; injection E as <- _; eauto.
  - destruct (nth_error s j) as [[q|]|] eqn:J; try destruct (p_timer q); injection E as <- _; eauto.
  - destruct (nth_error s j) as [[q|]|] eqn:J; try destruct (p_child q); injection E as <- _; unfold unref_proxy; eauto.
Qed.

(* Invariant over histories. *)
Definition pinv (refs : bool) (p : proxy) : Prop :=
  p_state p <> IDLE /\ (1 <= p_refs p)%nat /\
  (refs = false -> p_refs p = 1%nat /\ p_child p = true /\ p_state p <> EXITED).

Lemma after_pinv refs o k p p' : pinv refs p -> (refs = false -> forall j, o <> WRef j) -> after o k p = Some p' -> pinv refs p'.
Proof.
  intros [A [B C]] N E.
  assert (SAME : p' = p -> pinv refs p') by (intros ->; split; auto).
  destruct o as [pid lp tm sg|j f|j f|j|j|j kl|j kl|j]; cbn [after] in E; try (injection E as <-; split; auto; fail);
    (destruct (j =? k)%nat; [|apply SAME; congruence]).
  - destruct (p_loop p); [apply SAME; congruence|]. destruct f; [|apply SAME; congruence]. injection E as <-.
    split; [discriminate|]. split; [exact B|]. intro R. destruct (C R) as [? [? ?]]. repeat split; auto. discriminate.
  - destruct (p_loop p); [apply SAME; congruence|]. destruct f; [|apply SAME; congruence]. injection E as <-.
    split; [discriminate|]. split; [exact B|]. intro R. destruct (C R) as [? [? ?]]. repeat split; auto. discriminate.
  - injection E as <-. split; [exact A|]. split; [cbn; lia|]. intro R. exfalso. exact (N R j eq_refl).
  - destruct (Nat.leb_spec (p_refs p) 1); [discriminate|]. injection E as <-. split; [exact A|]. split; [cbn; lia|].
    intro R. destruct (C R). lia.
  - destruct kl; [|apply SAME; congruence]. injection E as <-. split; [discriminate|]. split; [exact B|].
    intro R. destruct (C R) as [? [? ?]]. repeat split; auto. discriminate.
  - destruct (p_timer p); [|apply SAME; congruence]. injection E as <-. split; [discriminate|]. split; [exact B|].
    intro R. destruct (C R) as [? [? ?]]. repeat split; auto. discriminate.
  - destruct (p_child p); [|apply SAME; congruence]. destruct (Nat.leb_spec (p_refs p) 1); [discriminate|]. injection E as <-.
    split; [discriminate|]. split; [cbn; lia|]. intro R. destruct (C R). lia.
Qed.

Lemma run_inv refs ops : (refs = false -> no_refs ops) -> forall s s' rs, wrun s ops = Ok (s', rs) ->
  (forall k p, nth_error s k = Some (Some p) -> pinv refs p) -> forall k p, nth_error s' k = Some (Some p) -> pinv refs p.
Proof.
  induction ops as [|o t IH]; intros N s s' rs E I k p H; cbn [wrun] in E.
  - injection E as <- _. eauto.
  - destruct (wstep s o) as [[s1 r]|] eqn:ST; [|discriminate]. cbn [obind] in E.
    destruct (wrun s1 t) as [[s2 rs2]|] eqn:RN; [|discriminate]. cbn [obind] in E. injection E as <- _.
    eapply (IH ltac:(intros R j Q; apply (N R j); right; auto) s1 s2 rs2 RN); eauto. clear k p H.
    intros k p H. destruct (nth_error s k) as [[q|]|] eqn:K.
    + pose proof (step_at _ _ _ _ _ _ ST K) as Q. rewrite H in Q. injection Q as Q. symmetry in Q.
      eapply after_pinv; [eapply I; eauto| |exact Q]. intros R j ->. apply (N R j). left; auto.
    + pose proof (step_dead _ _ _ _ _ ST K). congruence.
    + destruct (step_new _ _ _ _ _ _ ST K H) as [pid [lp [tm [sg [_ [_ Q]]]]]]. injection Q as ->.
      split; [discriminate|]. split; [cbn; lia|]. intros _. repeat split; try reflexivity. discriminate.
Qed.

Lemma back_lemma s o s' r k p p' : wstep s o = Ok (s', r) -> nth_error s k = Some (Some p) -> nth_error s' k = Some (Some p') ->
  (rank (p_state p') < rank (p_state p))%nat <->
  (((o = WSend k true \/ o = WClose k true) /\ p_loop p = false /\ (2 <= rank (p_state p))%nat) \/
   ((o = WYielded k true \/ ((exists b, o = WTimeout k b) /\ p_timer p = true)) /\ p_state p = EXITED)).
Proof.
  intros E H H'. pose proof (step_at _ _ _ _ _ _ E H) as A. rewrite H' in A. injection A as A. symmetry in A. clear E H H'.
  assert (NO : forall x : Prop, p' = p -> ((rank (p_state p') < rank (p_state p))%nat <-> x) <-> ~ x) by (intros x ->; split; [intros Q X; apply Q in X; lia|intro Q; split; [lia|tauto]]).
  destruct o as [pid lp tm sg|j f|j f|j|j|j kl|j kl|j]; cbn [after] in A.
  - apply NO; [congruence|]. intros [[[Q|Q] _]|[[Q|[[b Q] _]] _]]; discriminate.
  - destruct (Nat.eqb_spec j k) as [-> |N]; [|apply NO; [congruence|intros [[[Q|Q] _]|[[Q|[[b Q] _]] _]]; congruence]].
    destruct (p_loop p) eqn:LP; [apply NO; [congruence|intros [[_ [Q _]]|[[Q|[[b Q] _]] _]]; congruence]|].
    destruct f; [|apply NO; [congruence|intros [[[Q|Q] _]|[[Q|[[b Q] _]] _]]; congruence]].
    injection A as <-. cbn [with_state p_state rank]. split.
    + intro L. left. split; auto.
    + intros [[_ [_ L]]|[[Q|[[b Q] _]] _]]; [lia|discriminate|discriminate].
  - destruct (Nat.eqb_spec j k) as [-> |N]; [|apply NO; [congruence|intros [[[Q|Q] _]|[[Q|[[b Q] _]] _]]; congruence]].
    destruct (p_loop p) eqn:LP; [apply NO; [congruence|intros [[_ [Q _]]|[[Q|[[b Q] _]] _]]; congruence]|].
    destruct f; [|apply NO; [congruence|intros [[[Q|Q] _]|[[Q|[[b Q] _]] _]]; congruence]].
    injection A as <-. cbn [with_state p_state rank]. split.
    + intro L. left. split; auto.
    + intros [[_ [_ L]]|[[Q|[[b Q] _]] _]]; [lia|discriminate|discriminate].
  - destruct (j =? k)%nat; injection A as <-; cbn [with_refs p_state]; (split; [lia|]); intros [[[Q|Q] _]|[[Q|[[b Q] _]] _]]; discriminate.
  - destruct (j =? k)%nat; [destruct (p_refs p <=? 1)%nat; [discriminate|]|]; injection A as <-; cbn [with_refs p_state]; (split; [lia|]);
      intros [[[Q|Q] _]|[[Q|[[b Q] _]] _]]; discriminate.
  - destruct (Nat.eqb_spec j k) as [-> |N]; [|apply NO; [congruence|intros [[[Q|Q] _]|[[Q|[[b Q] _]] _]]; congruence]].
    destruct kl; [|apply NO; [congruence|intros [[[Q|Q] _]|[[Q|[[b Q] _]] _]]; congruence]].
    injection A as <-. cbn [with_state p_state]. split.
    + intro L. right. split; auto. destruct (p_state p); cbn in L; try lia. auto.
    + intros [[[Q|Q] _]|[_ Q]]; try discriminate. rewrite Q. cbn. lia.
  - destruct (Nat.eqb_spec j k) as [-> |N]; [|apply NO; [congruence|intros [[[Q|Q] _]|[[Q|[[b Q] _]] _]]; congruence]].
    destruct (p_timer p) eqn:TM; [|apply NO; [congruence|intros [[[Q|Q] _]|[[Q|[_ Q]] _]]; congruence]].
    injection A as <-. cbn [p_state]. split.
    + intro L. right. split; eauto. destruct (p_state p); cbn in L; try lia. auto.
    + intros [[[Q|Q] _]|[_ Q]]; try discriminate. rewrite Q. cbn. lia.
  - destruct (j =? k)%nat; [destruct (p_child p); [destruct (p_refs p <=? 1)%nat; [discriminate|]|]|]; injection A as <-; cbn [p_state with_refs rank].
    + split; [destruct (p_state p); cbn; lia|]. intros [[[Q|Q] _]|[[Q|[[b Q] _]] _]]; discriminate.
    + split; [lia|]. intros [[[Q|Q] _]|[[Q|[[b Q] _]] _]]; discriminate.
    + split; [lia|]. intros [[[Q|Q] _]|[[Q|[[b Q] _]] _]]; discriminate.
Qed.

Lemma forward_lemma ops s rs o s' r k p p' :
  no_refs ops -> wrun [] ops = Ok (s, rs) -> wstep s o = Ok (s', r) -> nth_error s k = Some (Some p) -> nth_error s' k = Some (Some p') ->
  (rank (p_state p) <= rank (p_state p'))%nat \/ ((o = WSend k true \/ o = WClose k true) /\ (p_state p = EXITING \/ p_state p = TIMED_OUT)).
Proof.
  intros N RN E H H'. destruct (Nat.le_gt_cases (rank (p_state p)) (rank (p_state p'))) as [L|L]; auto. right.
  assert (I : pinv false p).
  { eapply (run_inv false ops ltac:(auto) [] s rs RN); eauto. intros [|j] q Q; discriminate. }
  destruct I as [I1 [_ I2]]. destruct (I2 eq_refl) as [_ [_ I3]].
  apply (back_lemma s o s' r k p p' E H H') in L. destruct L as [[A [_ B]]|[_ B]]; [|contradiction]. split; auto.
  destruct (p_state p); cbn in B; auto; try lia. contradiction.
Qed.

Lemma idle_never_lemma ops s rs : wrun [] ops = Ok (s, rs) -> get_idle s = None.
Proof.
  intro RN. assert (I : forall k p, nth_error s k = Some (Some p) -> p_state p <> IDLE).
  { intros k p H. eapply (run_inv true ops ltac:(discriminate) [] s rs RN); eauto. intros [|j] q Q; discriminate. }
  clear RN. induction s as [|[p|] t IH]; cbn [get_idle]; auto.
  - pose proof (I O p eq_refl) as Q. destruct (p_state p); try (rewrite IH; [reflexivity|intros k; apply (I (S k))]). contradiction.
  - rewrite IH; [reflexivity|intros k; apply (I (S k))].
Qed.

Lemma idle_first_lemma s :
  match get_idle s with
  | Some k => (exists p, nth_error s k = Some (Some p) /\ p_state p = IDLE) /\
              forall j p, (j < k)%nat -> nth_error s j = Some (Some p) -> p_state p <> IDLE
  | None => forall j p, nth_error s j = Some (Some p) -> p_state p <> IDLE
  end.
Proof.
  induction s as [|x t IH]; cbn [get_idle]; [intros [|j] p Q; discriminate|].
  assert (REST : (forall p, x = Some p -> p_state p <> IDLE) ->
    match (match get_idle t with Some k => Some (S k) | None => None end) with
    | Some k => (exists p, nth_error (x :: t) k = Some (Some p) /\ p_state p = IDLE) /\
              forall j p, (j < k)%nat -> nth_error (x :: t) j = Some (Some p) -> p_state p <> IDLE
    | None => forall j p, nth_error (x :: t) j = Some (Some p) -> p_state p <> IDLE
    end).
  { intro X. destruct (get_idle t) as [k|].
    - destruct IH as [A B]. split; [exact A|]. intros [|j] p L Q; [injection Q as ->; auto|]. apply (B j); [lia|exact Q].
    - intros [|j] p Q; [injection Q as ->; auto|]. exact (IH j p Q). }
  destruct x as [p|]; [|apply REST; discriminate].
  destruct (p_state p) eqn:SP; try (apply REST; intros q Q; injection Q as <-; rewrite SP; discriminate).
  split; [exists p; auto|]. intros j q L. lia.
Qed.

Lemma signal_lemma ops s rs o s' r pid sig :
  no_refs ops -> wrun [] ops = Ok (s, rs) -> wstep s o = Ok (s', r) -> w_signal r = Some (pid, sig) ->
  exists k p, nth_error s k = Some (Some p) /\ p_pid p = pid /\ p_child p = true /\
    ((exists b, o = WYielded k b) /\ sig = SIGTERM \/ (exists b, o = WTimeout k b) /\ sig = p_sig p).
Proof.
  intros N RN E W.
  assert (I : forall k p, nth_error s k = Some (Some p) -> p_child p = true).
  { intros k p H. assert (Q : pinv false p) by (eapply (run_inv false ops ltac:(auto) [] s rs RN); eauto; intros [|j] q Z; discriminate).
    destruct Q as [_ [_ Q]]. apply Q; auto. }
  destruct o as [q lp tm sg|j f|j f|j|j|j kl|j kl|j]; cbn [wstep] in E.
  - injection E as _ <-. discriminate.
  - destruct (nth_error s j) as [[q|]|]; try discriminate. destruct (prepare_send s j q f). injection E as _ <-. discriminate.
  - destruct (nth_error s j) as [[q|]|]; try discriminate. destruct (prepare_send s j q f). injection E as _ <-. discriminate.
  - destruct (nth_error s j) as [[q|]|]; try discriminate. injection E as _ <-. discriminate.
  - destruct (nth_error s j) as [[q|]|]; try discriminate. injection E as _ <-. discriminate.
  - destruct (nth_error s j) as [[q|]|] eqn:J; injection E as _ <-; try discriminate. cbn [w_signal] in W. injection W as <- <-.
    exists j, q. repeat split; eauto. 
  - destruct (nth_error s j) as [[q|]|] eqn:J; [|injection E as _ <-; discriminate|injection E as _ <-; discriminate].
    destruct (p_timer q); [|injection E as _ <-; discriminate].
    injection E as _ <-. destruct (p_sig q =? 0)%N; [discriminate|]. cbn [w_signal] in W. injection W as <- <-. exists j, q. repeat split; eauto.
  - destruct (nth_error s j) as [[q|]|] eqn:J; try destruct (p_child q); injection E as _ <-; discriminate.
Qed.

Lemma exit_lemma ops s rs k p : no_refs ops -> wrun [] ops = Ok (s, rs) -> nth_error s k = Some (Some p) ->
  exists s', wstep s (WChildExit k) = Ok (s', quiet 0) /\ nth_error s' k = Some None /\ forall j, j <> k -> nth_error s' j = nth_error s j.
Proof.
  intros N RN H. assert (I : pinv false p) by (eapply (run_inv false ops ltac:(auto) [] s rs RN); eauto; intros [|j] q Z; discriminate).
  destruct I as [_ [_ I]]. destruct (I eq_refl) as [I1 [I2 _]]. cbn [wstep]. rewrite H, I2. eexists. split; [reflexivity|].
  unfold unref_proxy. cbn [p_refs]. rewrite I1. cbn [Nat.leb]. split.
  - rewrite nth_upd, Nat.eqb_refl, (nth_some_lt _ _ _ H). auto.
  - intros j Q. rewrite nth_upd. destruct (Nat.eqb_spec k j); [congruence|auto].
Qed.

Lemma send_code_lemma s k p found : nth_error s k = Some (Some p) ->
  exists s' r, wstep s (WSend k found) = Ok (s', quiet r) /\ wstep s (WClose k found) = Ok (s', quiet r) /\
    (r = 0 <-> p_loop p = false /\ found = true)%Z /\ (r <> 0%Z -> s' = s) /\ (r = 0%Z -> get_state s' k = Ok ASSIGNED) /\
    forall j, j <> k -> nth_error s' j = nth_error s j.
Proof.
  intro H. cbn [wstep]. rewrite H. unfold prepare_send. destruct (p_loop p).
  - exists s, (- ENOMEDIUM)%Z. repeat split; auto; try discriminate. intros [Q _]; discriminate.
  - destruct found; cbn [negb].
    + eexists _, 0%Z. split; [reflexivity|]. split; [reflexivity|]. split; [tauto|]. split; [congruence|]. split.
      * intros _. unfold get_state. rewrite nth_upd, Nat.eqb_refl, (nth_some_lt _ _ _ H). auto.
      * intros j Q. rewrite nth_upd. destruct (Nat.eqb_spec k j); [congruence|auto].
    + exists s, (- ECHRNG)%Z. repeat split; auto; try discriminate. intros [_ Q]; discriminate.
Qed.

Lemma yield_alive_lemma ws : forall i,
  match yield_worker false i ws with
  | (Some j, n, r) => (i <= j)%nat /\ n = O /\ r = None /\ (exists w, nth_error ws (j - i) = Some w /\ to_proxy w) /\
                      forall m w, (m < j - i)%nat -> nth_error ws m = Some w -> ~ to_proxy w
  | (None, n, r) => n = O /\ r = Some (- ENOTCONN)%Z /\ forall w, In w ws -> ~ to_proxy w
  end.
Proof.
  induction ws as [|w t IH]; intro i; cbn [yield_worker]; [repeat split; auto|].
  assert (REST : ~ to_proxy w -> match yield_worker false (S i) t with
    | (Some j, n, r) => (i <= j)%nat /\ n = O /\ r = None /\ (exists x, nth_error (w :: t) (j - i) = Some x /\ to_proxy x) /\
                      forall m x, (m < j - i)%nat -> nth_error (w :: t) m = Some x -> ~ to_proxy x
    | (None, n, r) => n = O /\ r = Some (- ENOTCONN)%Z /\ forall x, In x (w :: t) -> ~ to_proxy x
    end).
  { intro NP. specialize (IH (S i)). destruct (yield_worker false (S i) t) as [[[j|] n] r].
    - destruct IH as [A [B [C [[x [D1 D2]] F]]]]. split; [lia|]. split; auto. split; auto. replace (j - i)%nat with (S (j - S i)) by lia.
      split; [exists x; auto|]. intros [|m] y L Q; [injection Q as <-; auto|]. apply (F m); [lia|exact Q].
    - destruct IH as [A [B C]]. split; auto. split; auto. intros x [<-|Q]; auto. }
  destruct w; try (apply REST; intros []);
    (split; [lia|]; split; auto; split; auto; rewrite Nat.sub_diag; split; [eexists; split; [reflexivity|exact I]|intros m x L; lia]).
Qed.

Lemma yield_orphan_lemma ws : forall i, yield_worker true i ws =
  (None, length (filter (fun w => match w with WIRE_PIPE_TO_PRX | WIRE_SOCKET => true | _ => false end) ws), Some (- ENOTCONN)%Z).
Proof. induction ws as [|w t IH]; intro i; cbn [yield_worker filter]; auto. destruct w; rewrite IH; auto. Qed.

Lemma events_lemma s k p : nth_error s k = Some (Some p) ->
  (exists s', wstep s (WYielded k true) = Ok (s', {| w_code := 0; w_signal := Some (p_pid p, SIGTERM) |}) /\ get_state s' k = Ok EXITING /\
     forall j, j <> k -> nth_error s' j = nth_error s j) /\
  wstep s (WYielded k false) = Ok (s, {| w_code := 0; w_signal := Some (p_pid p, SIGTERM) |}) /\
  (p_timer p = true -> forall b, exists s', wstep s (WTimeout k b) =
       Ok (s', if (p_sig p =? 0)%N then quiet 0 else {| w_code := if b then 0 else -1; w_signal := Some (p_pid p, p_sig p) |}) /\
     get_state s' k = Ok TIMED_OUT /\ (forall b2, wstep s' (WTimeout k b2) = Ok (s', quiet 0)) /\ forall j, j <> k -> nth_error s' j = nth_error s j) /\
  (p_child p = true -> exists s', wstep s (WChildExit k) = Ok (s', quiet 0) /\
     (if (p_refs p <=? 1)%nat then nth_error s' k = Some None else get_state s' k = Ok EXITED) /\ wstep s' (WChildExit k) = Ok (s', quiet 0) /\
     forall j, j <> k -> nth_error s' j = nth_error s j).
Proof.
  intro H. pose proof (nth_some_lt _ _ _ H) as L.
  assert (U : forall q, nth_error (upd s k q) k = Some q) by (intro q; rewrite nth_upd, Nat.eqb_refl, L; auto).
  assert (V : forall q j, j <> k -> nth_error (upd s k q) j = nth_error s j) by (intros q j N; rewrite nth_upd; destruct (Nat.eqb_spec k j); [congruence|auto]).
  split; [|split; [|split]]; cbn [wstep]; rewrite H.
  - eexists. split; [reflexivity|]. split; [unfold get_state; rewrite U; auto|]. intros; apply V; auto.
  - reflexivity.
  - intros -> b. eexists. split; [reflexivity|]. split; [unfold get_state; rewrite U; auto|]. split; [intro b2; rewrite U; reflexivity|].
    intros; apply V; auto.
  - intros ->. eexists. split; [reflexivity|]. unfold unref_proxy. cbn [p_refs].
    destruct (p_refs p <=? 1)%nat.
    + split; [apply U|]. split; [rewrite U; auto|]. intros; apply V; auto.
    + split; [unfold get_state; rewrite U; auto|]. split; [rewrite U; auto|]. intros; apply V; auto.
Qed.
