(* Proofs about the ids of worker channels. *)
From Verif Require Import Base Buf_Model Wrk_Model.
Local Open Scope N_scope.

Lemma wrong_direction_lemma : forall a ao1 ao2 ty sp c d,
  s_wire sp = WIRE_PIPE_TO_PRX -> setup_channel ao1 ao2 PROXY ty sp = Ok (inl c) -> chan_send a c d = UB.
Proof.
  intros a ao1 ao2 ty sp c d W E. unfold setup_channel in E. rewrite W in E.
  unfold chan_send, chan_buf_send. replace (ch_tx c) with (@None lbuf); [reflexivity|].
  destruct ty; (destruct (mk ao1 _ _ _) as [[b1|e]|]; cbn [obind] in E; [|discriminate|discriminate]);
    cbn [mk obind] in E; injection E as <-; reflexivity.
Qed.

Lemma get_channel_lemma : forall ids id,
  match get_channel ids id with
  | Some k => nth_error ids k = Some id /\ (forall j, (j < k)%nat -> nth_error ids j <> Some id)
  | None => ~ In id ids
  end.
Proof.
  induction ids as [|d t IH]; intro id; cbn [get_channel]; [intros []|].
  destruct (list_eq_dec ascii_dec d id) as [-> |N]; [split; [reflexivity|intros; lia]|].
  specialize (IH id). destruct (get_channel t id) as [k|].
  - destruct IH as [A B]. split; auto. intros [|j] L; cbn; [congruence|apply B; lia].
  - intros [Q|Q]; auto.
Qed.

Lemma ids_size_none ids : ids_size ids = None -> exists i, In i ids /\ (i = None \/ i = Some []).
Proof.
  induction ids as [|[[|c d]|] t IH]; cbn [ids_size]; intro E; try discriminate.
  - exists (Some []); split; [left; auto|auto].
  - destruct (ids_size t); [discriminate|]. destruct (IH eq_refl) as [i [A B]]. exists i; split; [right; auto|auto].
  - exists None; split; [left; auto|auto].
Qed.

Lemma copy_ids_lemma ids : forall n pos room, ids_size ids = Some n -> room = pos + n ->
  exists m os, copy_ids room pos ids = Ok (m, os) /\ N.of_nat (length m) = n /\ length os = length ids /\
    Forall (fun i => exists d, i = Some d /\ d <> []) ids /\
    forall k d, nth_error ids k = Some (Some d) ->
      exists o, nth_error os k = Some o /\ pos <= o /\ firstn (S (length d)) (skipn (N.to_nat (o - pos)) m) = d ++ [NUL].
Proof.
  induction ids as [|i t IH]; intros n pos room E R.
  - injection E as <-. exists [], []. cbn. repeat split; auto. intros [|k] d X; discriminate.
  - destruct i as [[|c d]|]; cbn [ids_size] in E; try discriminate.
    destruct (ids_size t) as [n'|]; [|discriminate].
    assert (EN : n = N.of_nat (length (c :: d)) + 1 + n') by (clear - E; congruence). clear E. cbn [copy_ids]. set (x := c :: d) in *.
    destruct (N.ltb_spec room (pos + N.of_nat (length x) + 1)) as [L|L]; [lia|].
    destruct (IH n' (pos + N.of_nat (length x) + 1) room eq_refl ltac:(lia)) as [m [os [E2 [L2 [L3 [F A]]]]]].
    rewrite E2. cbn [obind]. exists (x ++ NUL :: m), (pos :: os). split; [reflexivity|].
    split; [rewrite app_length; cbn [length]; lia|]. split; [cbn; auto|].
    split; [constructor; auto; exists x; split; [auto|unfold x; discriminate]|].
    intros [|k] y X; cbn [nth_error] in X |- *.
    + injection X as <-. exists pos. split; auto. split; [lia|]. rewrite N.sub_diag. cbn [N.to_nat skipn].
      replace (x ++ NUL :: m) with ((x ++ [NUL]) ++ m) by (rewrite <- app_assoc; reflexivity).
      rewrite firstn_app. replace (S (length x)) with (length (x ++ [NUL])) by (rewrite app_length; cbn; lia).
      rewrite firstn_all, Nat.sub_diag. cbn [firstn]. apply app_nil_r.
    + destruct (A k y X) as [o [A1 [A2 A3]]]. exists o. split; auto. split; [lia|].
      replace (x ++ NUL :: m) with ((x ++ [NUL]) ++ m) by (rewrite <- app_assoc; reflexivity).
      rewrite skipn_app, (skipn_all2 (x ++ [NUL])) by (rewrite app_length; cbn [length]; lia). cbn [app].
      rewrite <- A3. do 2 f_equal. rewrite app_length. cbn [length]. lia.
Qed.

Lemma ids_lemma : forall ao ids,
  match set_channel_specs ao ids with
  | UB => False
  | Ok (inr e) => (e = - EINVAL /\ exists i, In i ids /\ (i = None \/ i = Some [])) \/ (e = - ENOMEM /\ ao = false)
  | Ok (inl (m, os)) =>
      length os = length ids /\ Forall (fun i => exists d, i = Some d /\ d <> []) ids /\
      forall k d, nth_error ids k = Some (Some d) ->
        exists o, nth_error os k = Some o /\ firstn (S (length d)) (skipn (N.to_nat o) m) = d ++ [NUL]
  end%Z.
Proof.
  intros ao ids. unfold set_channel_specs. destruct (ids_size ids) as [n|] eqn:E.
  - destruct ao; cbn [negb]; [|right; auto].
    destruct (copy_ids_lemma ids n 0 n E ltac:(lia)) as [m [os [E2 [_ [L [F A]]]]]]. rewrite E2. cbn [obind].
    split; auto. split; auto. intros k d X. destruct (A k d X) as [o [A1 [_ A3]]]. exists o. split; auto. rewrite N.sub_0_r in A3. auto.
  - left. split; auto. apply ids_size_none; auto.
Qed.
