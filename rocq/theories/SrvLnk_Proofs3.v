From Verif Require Import Base List_Model List_Proofs Tok_Model UbrDb_Model UbrPerm_Proofs SrvLnk_Model SrvLnk_Spec SrvLnk_Proofs SrvLnk_Proofs2.
Local Open Scope nat_scope.

Lemma index_end_lemma c l r : ~ In c l -> index c (l ++ c :: r) = Some (length l).
Proof.
  induction l as [|x l IH]; intros N; cbn [app index length]; [rewrite Ascii.eqb_refl; reflexivity|]. destruct (Ascii.eqb_spec x c) as [->|_]; [elim N; left; reflexivity|].
  rewrite IH; [reflexivity|]. intros I. apply N. right. exact I.
Qed.
Lemma index_no_lemma c l : ~ In c l -> index c l = None.
Proof. induction l as [|x l IH]; intros N; cbn [index]; [reflexivity|]. destruct (Ascii.eqb_spec x c) as [->|_]; [elim N; left; reflexivity|]. rewrite IH; [reflexivity|]. intros I. apply N. right. exact I. Qed.
Lemma firstn_key (k l r : bytes) : ~ In LF k -> ~ In LF l -> key_eqb (firstn (length k) (l ++ LF :: r)) k = begins k l.
Proof.
  unfold begins. revert l. induction k as [|x k IH]; intros l Nk Nl; [reflexivity|].
  destruct l as [|y l]; cbn [length firstn app].
  - destruct (key_eqb_spec (LF :: firstn (length k) r) (x :: k)) as [X|_]; [injection X as X _; elim Nk; left; symmetry; exact X|]. destruct (list_eq_dec Ascii.ascii_dec _ _) as [X|_]; [discriminate X|reflexivity].
  - specialize (IH l (fun I => Nk (or_intror I)) (fun I => Nl (or_intror I))). destruct (key_eqb_spec (firstn (length k) (l ++ LF :: r)) k) as [E|E].
    + destruct (list_eq_dec Ascii.ascii_dec (firstn (length k) l) k) as [E'|_]; [|discriminate IH]. rewrite E, E'. destruct (key_eqb_spec (y :: k) (x :: k)) as [X|X]; destruct (list_eq_dec Ascii.ascii_dec _ _); congruence.
    + destruct (list_eq_dec Ascii.ascii_dec (firstn (length k) l) k) as [_|E']; [discriminate IH|]. destruct (key_eqb_spec (y :: firstn (length k) (l ++ LF :: r)) (x :: k)) as [X|X]; destruct (list_eq_dec Ascii.ascii_dec _ _); congruence.
Qed.
Lemma key_begins k l : key_eqb (firstn (length k) l) k = begins k l.
Proof. unfold begins. destruct (key_eqb_spec (firstn (length k) l) k); destruct (list_eq_dec Ascii.ascii_dec _ _); congruence. Qed.
Lemma begins_split k l : begins k l = true -> l = k ++ skipn (length k) l.
Proof. unfold begins. destruct (list_eq_dec Ascii.ascii_dec _ _) as [E|]; [|discriminate]. intros _. rewrite <- E at 1. symmetry. apply firstn_skipn. Qed.
Lemma value_lemma k : ~ In LF k -> k <> [] -> forall ls fuel, (forall l, In l ls -> ~ In LF l) -> length (join_lines ls) <= fuel ->
  get_arg_value fuel (join_lines ls) k = option_map (skipn (length k)) (find (begins k) ls).
Proof.
  intros Nk Kn. assert (B0 : begins k [] = false) by (unfold begins; rewrite firstn_nil; destruct (list_eq_dec Ascii.ascii_dec _ _); congruence).
  induction ls as [|l ls IH]; intros fuel Nl Lf; [destruct fuel; reflexivity|]. assert (Nl1 : ~ In LF l) by (apply Nl; left; reflexivity). cbn [find].
  destruct ls as [|l' ls].
  - cbn [join_lines find] in *. destruct l as [|x l]; [rewrite B0; destruct fuel; reflexivity|]. destruct fuel as [|fuel]; [cbn in Lf; lia|]. cbn [get_arg_value].
    rewrite (index_no_lemma _ _ Nl1), key_begins. destruct (begins k (x :: l)) eqn:Bk; cbn [option_map].
    + rewrite firstn_all2; [reflexivity|]. rewrite skipn_length. reflexivity.
    + rewrite skipn_all2 by lia. destruct fuel; reflexivity.
  - set (ls' := l' :: ls) in *. cbn [join_lines] in *. change (match ls' with [] => l | _ => l ++ LF :: join_lines ls' end) with (l ++ LF :: join_lines ls') in *.
    assert (Ej : join_lines (l :: ls') = l ++ LF :: join_lines ls') by reflexivity.
    destruct fuel as [|fuel]; [rewrite ?app_length in Lf; cbn in Lf; lia|].
    assert (Hs : exists y z, l ++ LF :: join_lines ls' = y :: z) by (destruct l; cbn; eauto). destruct Hs as (y & z & Hs). cbn [get_arg_value]. rewrite Hs. rewrite <- Hs.
    rewrite (index_end_lemma LF l _ Nl1), (firstn_key k l _ Nk Nl1). destruct (begins k l) eqn:Bk; cbn [option_map].
    + f_equal. rewrite (begins_split k l Bk) at 2. rewrite <- app_assoc. rewrite (skipn_app (length k) k), Nat.sub_diag. rewrite skipn_all2 by lia. cbn [app skipn].
      rewrite firstn_app. rewrite skipn_length. rewrite Nat.sub_diag. cbn [firstn]. rewrite app_nil_r. apply firstn_all2. rewrite skipn_length. lia.
    + replace (skipn (length l + 1) (l ++ LF :: join_lines ls')) with (join_lines ls').
      2:{ rewrite skipn_app, skipn_all2 by lia. replace (length l + 1 - length l) with 1 by lia. reflexivity. }
      rewrite IH; [reflexivity|intros q Hq; apply Nl; right; exact Hq|]. rewrite app_length in Lf. cbn [length] in Lf. lia.
Qed.
Lemma asks_bit n i b : b = (2 ^ i)%N -> asks n b = N.testbit n i.
Proof.
  intros ->. unfold asks. destruct (N.testbit n i) eqn:T.
  - destruct (N.eqb_spec (N.land n (2 ^ i)) 0) as [E|_]; [|reflexivity]. assert (X : N.testbit (N.land n (2 ^ i)) i = false) by (rewrite E; apply N.bits_0). rewrite N.land_spec, T, N.pow2_bits_true in X. discriminate X.
  - assert (E : N.land n (2 ^ i) = 0%N). { apply N.bits_inj_0. intros j. rewrite N.land_spec. destruct (N.eq_dec j i) as [->|N0]; [rewrite T; reflexivity|rewrite (N.pow2_bits_false i j) by congruence; apply andb_false_r]. }
    rewrite E. reflexivity.
Qed.
Lemma arg_line_lemma ls key : (forall l, In l ls -> ~ In LF l) -> ~ In LF (B key) -> arg_line (Some (join_lines ls)) key = first_line (B key ++ B "=") ls.
Proof.
  intros Nl Nk. unfold arg_line, first_line. rewrite (value_lemma (B key ++ B "=")); [|intros I; apply in_app_or in I as [I|[I|[]]]; [contradiction|discriminate I]|destruct (B key); discriminate|exact Nl|lia].
  destruct (find (begins (B key ++ B "=")) ls) as [l|] eqn:F; cbn [option_map]; [|reflexivity]. apply find_some in F as [_ Bk]. rewrite (begins_split _ _ Bk) at 2. rewrite <- !app_assoc. reflexivity.
Qed.
Lemma systemd_lemma notif msg : good_lines msg -> notify_systemd notif (msg_bytes msg) = (told notif (match msg with Some ls => ls | None => [] end), N.testbit notif 0).
Proof.
  intros G. unfold notify_systemd, told.
  rewrite (asks_bit notif 1 NOTIF_STATUS eq_refl), (asks_bit notif 2 NOTIF_ERRNO eq_refl), (asks_bit notif 3 NOTIF_READY eq_refl), (asks_bit notif 4 NOTIF_RELOADING eq_refl), (asks_bit notif 5 NOTIF_STOPPING eq_refl),
    (asks_bit notif 6 NOTIF_WATCHDOG_REFRESH eq_refl), (asks_bit notif 7 NOTIF_WATCHDOG_TRIGGER eq_refl), (asks_bit notif 0 NOTIF_UNSET eq_refl).
  cbn [map fst snd List.concat]. rewrite app_nil_r.
  assert (E : forall key, ~ In LF (B key) -> arg_line (msg_bytes msg) key = first_line (B key ++ B "=") (match msg with Some ls => ls | None => [] end)).
  { intros key Nk. destruct msg as [ls|]; [apply arg_line_lemma; [exact (G ls eq_refl)|exact Nk]|reflexivity]. }
  rewrite (E "STATUS"%string), (E "ERRNO"%string); [reflexivity| |]; vm_compute; intuition discriminate.
Qed.
Definition sum_takes notif msg (ks : list link) : nat := total_formats notif msg (map attrs_of ks).
Definition used_of (n : nat) : bool := negb (n =? 0).
Lemma link_lemma k notif msg args u : good_lines msg -> 
  notify_link k notif (msg_bytes msg) args (args && used_of u) = if args && (2 <=? u + formats notif msg (attrs_of k)) && negb (formats notif msg (attrs_of k) =? 0) then UB
    else Ok (effects notif msg (attrs_of k), args && used_of (u + formats notif msg (attrs_of k))).
Proof.
  intros G. unfold notify_link, effects, formats, attrs_of. unfold asks at 1. destruct (N.land (k_notif k) notif =? 0)%N; cbn [negb]; [rewrite !andb_false_r, Nat.add_0_r; reflexivity|].
  unfold TYPE_SYSTEMD, TYPE_LOGGER. destruct (k_type k) as [|[|[|ty]]]; cbn [Nat.eqb negb]; try (rewrite !andb_false_r, Nat.add_0_r; reflexivity).
  - destruct msg as [ls|].
    + cbn [msg_bytes option_map]. unfold format. destruct args; cbn [andb].
      * destruct u as [|u]; cbn [used_of Nat.eqb negb andb obind Nat.add Nat.leb].
        -- change (Some (join_lines ls)) with (msg_bytes (Some ls)). rewrite (systemd_lemma notif (Some ls) G). reflexivity.
        -- replace (u + 1) with (S u) by lia. reflexivity.
      * cbn [obind]. change (Some (join_lines ls)) with (msg_bytes (Some ls)). rewrite (systemd_lemma notif (Some ls) G). reflexivity.
    + cbn [msg_bytes option_map obind]. change (@None bytes) with (msg_bytes None). rewrite (systemd_lemma notif None G). rewrite !andb_false_r, Nat.add_0_r, orb_false_r. reflexivity.
  - unfold notify_logger, logged.
    rewrite (asks_bit notif 8 NOTIF_MESSAGE eq_refl), (asks_bit notif 1 NOTIF_STATUS eq_refl), (asks_bit notif 3 NOTIF_READY eq_refl), (asks_bit notif 4 NOTIF_RELOADING eq_refl), (asks_bit notif 5 NOTIF_STOPPING eq_refl),
      (asks_bit notif 6 NOTIF_WATCHDOG_REFRESH eq_refl), (asks_bit notif 7 NOTIF_WATCHDOG_TRIGGER eq_refl).
    assert (M : match msg_bytes msg with Some m => m | None => [] end = match msg with Some ls => join_lines ls | None => [] end) by (destruct msg; reflexivity). rewrite M. clear M.
    set (text := match msg with Some ls => join_lines ls | None => [] end). unfold format.
    cbn [filter fst]. assert (T : forall n, n + (1 + 1) = S (S n)) by (intros; lia). assert (T1 : forall n, n + (1 + 0) = S n) by (intros; lia). assert (T2 : forall n, n + (0 + 1) = S n) by (intros; lia). assert (T3 : forall n, n + (0 + 0) = n) by (intros; lia).
    destruct (N.testbit notif 8), (N.testbit notif 1); rewrite ?T, ?T1, ?T2, ?T3; destruct args, u as [|u]; cbn [used_of Nat.eqb negb andb orb obind Nat.add Nat.leb]; try reflexivity;
      rewrite ?andb_false_r; cbn [app]; destruct (N.testbit notif 3), (N.testbit notif 4), (N.testbit notif 5), (N.testbit notif 6), (N.testbit notif 7); reflexivity.
Qed.
Lemma links_lemma ks notif msg args : good_lines msg -> forall u, u <= 1 -> notify_links ks notif (msg_bytes msg) args (args && used_of u) = if args && (2 <=? u + sum_takes notif msg ks) then UB else Ok (flat_map (effects notif msg) (map attrs_of ks)).
Proof.
  intros G. unfold sum_takes, total_formats. induction ks as [|k ks IH]; intros u Lu; cbn [notify_links map list_sum fold_right flat_map].
  - destruct (Nat.leb_spec 2 (u + 0)) as [X|_]; [lia|]. rewrite andb_false_r. reflexivity.
  - rewrite (link_lemma k notif msg args u G). set (f := formats notif msg (attrs_of k)). change (fold_right Nat.add 0 (map (formats notif msg) (map attrs_of ks))) with (list_sum (map (formats notif msg) (map attrs_of ks))).
    set (r := list_sum (map (formats notif msg) (map attrs_of ks))) in *. destruct args; cbn [andb] in *.
    + destruct (Nat.leb_spec 2 (u + f)) as [X|X]; cbn [andb].
      * destruct (Nat.eqb_spec f 0) as [F0|F0]; [lia|]. cbn [negb obind]. destruct (Nat.leb_spec 2 (u + (f + r))) as [Y|Y]; [reflexivity|lia].
      * cbn [obind]. rewrite IH by lia. rewrite Nat.add_assoc. destruct (2 <=? u + f + r); reflexivity.
    + cbn [obind]. rewrite (IH 0) by lia. reflexivity.
Qed.
Lemma get_links_lemma s w l atts : rep s w -> all_attrs w l atts -> exists ks, get_links s l = Ok ks /\ map attrs_of ks = atts.
Proof.
  intros R A. induction A as [|x a l atts Ha _ (ks & E & M)]; [exists []; auto|]. cbn [get_links]. destruct (links_some s w x R ltac:(congruence)) as (k & Ek). rewrite Ek, E. cbn [obind].
  exists (k :: ks). split; [reflexivity|]. cbn [map]. rewrite M. f_equal. pose proof (r_links s w R x) as X. rewrite Ek, Ha in X. injection X as X. exact X.
Qed.
Lemma notify_lemma os w g n l atts notif msg args : lcalls no_world os w -> w_grps w g = Some (n, l) -> all_attrs w l atts -> good_lines msg ->
  exists F, forall fuel, F <= fuel -> exists s, steps fuel no_store os = Ok (Some s)
    /\ grp_notify fuel s g notif (msg_bytes msg) args = if args && (2 <=? total_formats notif msg atts) then UB else Ok (Some (flat_map (effects notif msg) atts)).
Proof.
  intros C Hg A G. destruct (steps_lemma _ _ _ C) as (F & H). exists (max F (S (length l))). intros fuel Lf. destruct (H no_store fuel no_rep ltac:(lia)) as (s & E & R). exists s. split; [exact E|].
  unfold grp_notify. rewrite (proj1 (ring_walk (nodes s) g l fuel (r_ring s w R g n l Hg) ltac:(lia))). cbn [obind]. destruct (get_links_lemma s w l atts R A) as (ks & -> & M). cbn [obind].
  pose proof (links_lemma ks notif msg args G 0 ltac:(lia)) as X. unfold used_of in X. cbn [Nat.eqb negb] in X. rewrite andb_false_r in X. rewrite X. unfold sum_takes. rewrite M. cbn [Nat.add].
  destruct (args && (2 <=? total_formats notif msg atts)); reflexivity.
Qed.
Lemma member_attrs os w g n l : lcalls no_world os w -> w_grps w g = Some (n, l) -> exists atts, all_attrs w l atts.
Proof.
  intros C Hg. destruct (steps_lemma _ _ _ C) as (F & H). destruct (H no_store F no_rep ltac:(lia)) as (s & _ & R).
  assert (M : forall x, In x l -> w_links w x <> None) by (intros x Hx; apply (r_member s w R x g); exists n, l; auto). clear - M. induction l as [|x l IH]; [exists []; constructor|].
  destruct IH as (atts & A); [intros y Hy; apply M; right; exact Hy|]. destruct (w_links w x) as [a|] eqn:E; [|elim (M x); [left; reflexivity|exact E]]. exists (a :: atts). constructor; assumption.
Qed.
Lemma notified_ok os g notif msg args atts fuel : args = false \/ total_formats notif msg atts <= 1 ->
  (exists s, steps fuel no_store os = Ok (Some s) /\ grp_notify fuel s g notif (msg_bytes msg) args = if args && (2 <=? total_formats notif msg atts) then UB else Ok (Some (flat_map (effects notif msg) atts))) ->
  exists s, steps fuel no_store os = Ok (Some s) /\ grp_notify fuel s g notif (msg_bytes msg) args = Ok (Some (flat_map (effects notif msg) atts)).
Proof.
  intros O (s & E & H). exists s. split; [exact E|]. rewrite H. destruct O as [->|O]; [reflexivity|]. destruct (Nat.leb_spec 2 (total_formats notif msg atts)); [lia|]. rewrite andb_false_r. reflexivity.
Qed.
Lemma notified_lemma os w g n l notif msg : lcalls no_world os w -> w_grps w g = Some (n, l) -> good_lines msg ->
  exists atts, all_attrs w l atts /\ forall args, args = false \/ total_formats notif msg atts <= 1 ->
  exists F, forall fuel, F <= fuel -> exists s, steps fuel no_store os = Ok (Some s) /\ grp_notify fuel s g notif (msg_bytes msg) args = Ok (Some (flat_map (effects notif msg) atts)).
Proof.
  intros C Hg G. destruct (member_attrs os w g n l C Hg) as (atts & A). exists atts. split; [exact A|]. intros args O. destruct (notify_lemma os w g n l atts notif msg args C Hg A G) as (F & H).
  exists F. intros fuel Lf. apply notified_ok; [exact O|exact (H fuel Lf)].
Qed.
Lemma notified_refuted_lemma os w g n l atts notif msg : lcalls no_world os w -> w_grps w g = Some (n, l) -> good_lines msg -> all_attrs w l atts -> 2 <= total_formats notif msg atts ->
  exists F, forall fuel, F <= fuel -> exists s, steps fuel no_store os = Ok (Some s) /\ grp_notify fuel s g notif (msg_bytes msg) true = UB.
Proof.
  intros C Hg G A T. destruct (notify_lemma os w g n l atts notif msg true C Hg A G) as (F & H). exists F. intros fuel Lf. destruct (H fuel Lf) as (s & E & X). exists s. split; [exact E|]. rewrite X.
  destruct (Nat.leb_spec 2 (total_formats notif msg atts)); [reflexivity|lia].
Qed.

(* a case *)
Ltac places := intros; cbn; unfold put; repeat match goal with |- context [?y =? ?n] => destruct (Nat.eqb_spec y n); subst end; cbn in *; try reflexivity; try lia; try congruence.
Lemma some_calls_lemma : lcalls no_world [LCreate 5 (B "log") 2 264 1 3; GCreate 6 (B "links"); GAdd 6 5; LCreate 7 (B "systemd") 1 10 0 0; GAdd 6 7]
  (World (put (fun _ => None) 6 (Some (B "links", [5; 7]))) (put (put (fun _ => None) 5 (Some (B "log", 2, 264%N, 1%N, 3))) 7 (Some (B "systemd", 1, 10%N, 0%N, 0)))).
Proof.
  set (k5 := Some (B "log", 2, 264%N, 1%N, 3)). set (k7 := Some (B "systemd", 1, 10%N, 0%N, 0)).
  eapply Ls_more with (w' := World (fun _ => None) (put (fun _ => None) 5 k5)).
  { apply L_create; [intros [X|X]; cbn in X; contradiction|intros y; reflexivity|reflexivity|places]. }
  eapply Ls_more with (w' := World (put (fun _ => None) 6 (Some (B "links", []))) (put (fun _ => None) 5 k5)).
  { apply G_create; [intros [X|X]; cbn in X; contradiction|intros y; reflexivity|split; [reflexivity|places]]. }
  eapply Ls_more with (w' := World (put (fun _ => None) 6 (Some (B "links", [5]))) (put (fun _ => None) 5 k5)).
  { eapply G_add with (l := []); [reflexivity|discriminate| |intros y; reflexivity|split; [reflexivity|places]]. intros g (n & l & H & I). cbn in H. unfold put in H. destruct (g =? 6); [injection H as <- <-; destruct I|discriminate H]. }
  eapply Ls_more with (w' := World (put (fun _ => None) 6 (Some (B "links", [5]))) (put (put (fun _ => None) 5 k5) 7 k7)).
  { apply L_create; [intros [X|X]; cbn in X; contradiction|intros y; reflexivity|reflexivity|places]. }
  eapply Ls_more; [|apply Ls_none].
  eapply G_add with (l := [5]); [reflexivity|discriminate| |intros y; reflexivity|split; [reflexivity|places]]. intros g (n & l & H & I). cbn in H. unfold put in H. destruct (g =? 6); [injection H as <- <-; destruct I as [I|[]]; discriminate I|discriminate H].
Qed.
Lemma merge_case_lemma : exists os w, lcalls no_world os w /\ w_grps w 6 = Some (B "links", [5; 7]) /\ w_grps w 8 = Some (B "other", []).
Proof.
  eexists ([_; _; _; _; _; GCreate 8 (B "other")]), (World (put (put (fun _ => None) 6 (Some (B "links", [5; 7]))) 8 (Some (B "other", []))) _). split; [|split; reflexivity].
  assert (App : forall w os w1 o w2, lcalls w os w1 -> lcall w1 o w2 -> lcalls w (os ++ [o]) w2) by (induction 1; intros C; [eapply Ls_more; [exact C|apply Ls_none]|eapply Ls_more; eauto]).
  eapply (App _ [_; _; _; _; _]); [exact some_calls_lemma|]. apply G_create; [intros [X|X]; cbn in X; contradiction|intros y; reflexivity|split; [reflexivity|places]].
Qed.
Lemma more_calls_lemma : exists w, lcalls (World (put (fun _ => None) 6 (Some (B "links", [5; 7]))) (put (put (fun _ => None) 5 (Some (B "log", 2, 264%N, 1%N, 3))) 7 (Some (B "systemd", 1, 10%N, 0%N, 0))))
  [GClone 6 8 (B "clone") [9; 10]; GDel 6 5; GDel 8 5; GDestroyWith 8; LDestroy 7] w
  /\ w_grps w 6 = Some (B "links", []) /\ w_links w 5 = Some (B "log", 2, 264%N, 1%N, 3) /\ w_links w 7 = None /\ w_links w 9 = None.
Proof.
  set (k5 := Some (B "log", 2, 264%N, 1%N, 3)). set (k7 := Some (B "systemd", 1, 10%N, 0%N, 0)).
  exists (World (put (put (fun _ => None) 6 (Some (B "links", []))) 8 None) (put (put (put (fun _ => None) 5 k5) 7 None) 9 None)). split; [|repeat split].
  eapply Ls_more with (w' := World (put (put (fun _ => None) 6 (Some (B "links", [5; 7]))) 8 (Some (B "clone", [9]))) (put (put (put (fun _ => None) 5 k5) 7 k7) 9 k5)).
  { eapply G_clone with (ps := [9]) (qs := [10]) (l := [5; 7]); [reflexivity| | |reflexivity|split; [reflexivity|places]|constructor; [reflexivity|constructor]|places].
    - repeat (apply NoDup_cons; [cbn; lia|]). apply NoDup_nil.
    - intros p [<-|[<-|[<-|[]]]] [X|X]; cbn in X; contradiction.
    }
  eapply Ls_more with (w' := World (put (put (fun _ => None) 6 (Some (B "links", [7]))) 8 (Some (B "clone", [9]))) (put (put (put (fun _ => None) 5 k5) 7 k7) 9 k5)).
  { eapply G_del with (l1 := []) (l2 := [7]); [reflexivity|intros y; reflexivity|split; [reflexivity|places]]. }
  eapply Ls_more with (w' := World (put (put (fun _ => None) 6 (Some (B "links", [7]))) 8 (Some (B "clone", [9]))) (put (put (put (fun _ => None) 5 k5) 7 k7) 9 k5)).
  { apply G_del_other; [discriminate| |intros y; reflexivity|intros y; reflexivity]. intros (n & l & H & I). cbn in H. injection H as <- <-. destruct I as [I|[]]. discriminate I. }
  eapply Ls_more with (w' := World (put (put (fun _ => None) 6 (Some (B "links", [7]))) 8 None) (put (put (put (fun _ => None) 5 k5) 7 k7) 9 None)).
  { eapply G_destroy_with with (l := [9]); [reflexivity|intros y [<-|[]]; reflexivity| |split; [reflexivity|places]]. places. }
  eapply Ls_more; [|apply Ls_none].
  eapply L_destroy_in with (g := 6) (l1 := []) (l2 := []); [reflexivity|split; [reflexivity|places]|reflexivity|places].
Qed.
