From Coq Require Import Permutation.
From Verif Require Import Base UbrCmd_Model UbrCmd_Spec UbrCmd_Proofs UbrRoute_Model UbrRoute_Spec UbrRoute_Proofs UbrRoute_Proofs2 UbrRoute_Proofs3.
Local Open Scope nat_scope.

(* A command is resumed by a message taken from the way to the worker *)
Lemma good_sched s o m down e (mem : bool) (k : to_worker_msg) : sound s -> w_ended s = false -> w_down s = (o, m) :: down -> In e (commands s) ->
  mem = match k with W_Resources => true | _ => false end ->
  (distinct s -> told e (w_down s) = k :: told e down /\ match k with W_Umonitor => to_main (e_reg e) = true | _ => True end) ->
  (distinct s -> forall y, In y (commands s) -> y <> e -> told y (w_down s) = told y down) ->
  good_step s (let! (c, _) := change_state (e_reg e) (if mem then with_mem (e_cmd e) else e_cmd e) C_EXE_SCHED 0 in
               Ok (with_kids (Wsys (w_kids s) (w_next s) (w_ended s) (w_up s) down 0) (set_entry (with_cmd e c) (w_kids s)))).
Proof.
  intros S En D I Mk To Oth. destruct (o_each _ S e I) as (R & V & Se & Ee). specialize (Ee En).
  set (c0 := if mem then with_mem (e_cmd e) else e_cmd e).
  assert (V0 : inv (e_reg e) c0) by (unfold c0; destruct mem; exact V). assert (E0 : c_ended c0 = false) by (unfold c0; destruct mem; exact Ee). assert (Se0 : c_sent c0 = []) by (unfold c0; destruct mem; exact Se).
  destruct (sched_inv _ _ V0 E0) as (c & r & Ch & Vc & Eq). rewrite Ch. cbn [obind].
  assert (Sc : c_sent c = [] /\ c_ended c = false) by (destruct Eq as [(_ & ->)|(_ & _ & _ & _ & -> & _ & ->)]; auto).
  eexists. split; [reflexivity|]. unfold with_kids. cbn [w_kids w_next w_ended w_up w_down w_lost].
  destruct (sound_put s e c (w_up s) down (w_ended s) (set_entry (with_cmd e c) (w_kids s)) S I) as (S' & T).
  - rewrite set_entries. reflexivity.
  - rewrite set_conns. apply incl_refl.
  - rewrite set_conns. apply (o_conns _ S).
  - exact Vc.
  - apply Sc.
  - intros X. split; [exact X|apply Sc].
  - apply (o_up _ S).
  - intros n' m' H. apply (o_some _ S). rewrite D. right. exact H.
  - intros m' H. apply (o_none _ S). rewrite D. right. exact H.
  - split; [exact S'|]. apply follows_nil; [exact T|]. intros Di y Y. left.
    assert (Ds : distinct s) by (eapply distinct_perm; [|exact Di]; rewrite app_nil_r; exact T).
    unfold commands in Y. cbn [w_kids] in Y. rewrite set_entries in Y. apply (put_in _ _ _ _ (o_nums _ S) I) in Y as [->|(Y & Ny)].
    + exists e. split; [exact I|]. split; [reflexivity|]. exists [A_message]. destruct (To Ds) as (To1 & To2). cbn [sys_steps]. unfold view at 1. cbn [sys_step s_cmd s_in]. rewrite To1.
      change (c_ended (with_sent (e_cmd e) (asked (e_num e) (w_up s)))) with (c_ended (e_cmd e)). rewrite Ee.
      replace (match k with W_Umonitor => negb (to_main (e_reg e)) | _ => false end) with false by (destruct k; [reflexivity..|rewrite To2; reflexivity]).
      replace (match k with W_Resources => with_mem (with_sent (e_cmd e) (asked (e_num e) (w_up s))) | _ => with_sent (e_cmd e) (asked (e_num e) (w_up s)) end) with (shift (asked (e_num e) (w_up s)) c0).
      * rewrite change_framed, Ch. cbn [oshift obind]. unfold view. cbn [w_up w_down with_cmd e_num e_cmd]. unfold shift. destruct Sc as (-> & _). rewrite app_nil_r. reflexivity.
      * unfold shift, c0. subst mem. destruct k; cbn [with_mem c_sent]; rewrite Se, app_nil_r; reflexivity.
    + apply stays; [exact Y|]. apply view_eq; cbn [w_up w_down]; [reflexivity|]. apply (Oth Ds y Y). congruence.
Qed.
Lemma good_message s ok : sound s -> w_ended s = false -> good_step s (step_message s ok).
Proof.
  intros S En. unfold step_message. destruct (w_down s) as [|[o m] down] eqn:D; [apply good_same, S|]. destruct o as [n|].
  - destruct (o_some _ S n m) as (nm & g & fl & k & I & ->); [rewrite D; left; reflexivity|]. apply tag_in in I as (e & I & Nu & Nm & Eg & Fl).
    destruct (o_each _ S e I) as (R & _). assert (Na : named nm) by (rewrite <- Nm; exact (regs_named _ _ R)). rewrite (worker_answer k fl nm Na). cbn [obind].
    replace (m_ext (answer k fl nm) && negb match k with M_Sync => false | M_Resources => true end) with false by (destruct k; reflexivity). cbn [lose w_kids w_next w_ended w_up w_down w_lost]. unfold lose. cbn [w_kids w_next w_ended w_up w_down w_lost].
    destruct (find_name_some nm (w_kids s) e I Nm) as (e2 & F). rewrite F. apply find_name_in in F as (I2 & N2). rewrite (o_lost _ S).
    eapply (good_sched s _ _ down e2 _ (told_kind k) S En D I2).
    + destruct k; reflexivity.
    + intros Di. assert (e2 = e) as -> by (apply (same_name _ _ _ Di I2 I); congruence). rewrite D. rewrite (told_own_at _ n) by exact Nu. split; [reflexivity|]. destruct k; exact Logic.I.
    + intros Di y Y Ny. assert (e2 = e) as -> by (apply (same_name _ _ _ Di I2 I); congruence). rewrite D. apply told_other. intros X. apply Ny, (same_num _ _ _ (o_nums _ S) Y I). congruence.
  - destruct (o_none _ S m) as [->|[(p & ->)| ->]]; [rewrite D; left; reflexivity|..].
    + (* CLIENT *)
      change (worker_recv msg_client) with (Ok (J_conn, false)). cbn [obind w_kids w_next w_ended w_up w_down w_lost]. rewrite (o_lost _ S). destruct ok.
      * eexists. split; [reflexivity|].
        destruct (sound_entries s (w_kids s) (w_up s) down (w_ended s) S (Permutation_refl _) (incl_refl _) (o_conns _ S) (fun H => H) (incl_refl _)) as (S' & T); [intros n m H; apply (o_some _ S); rewrite D; right; exact H|intros m H; apply (o_none _ S); rewrite D; right; exact H|].
        assert (Ee : entries (w_kids s ++ [Conn (w_next s) []]) = entries (w_kids s)) by (rewrite entries_app; cbn; apply app_nil_r).
        assert (Ec : conns (w_kids s ++ [Conn (w_next s) []]) = conns (w_kids s) ++ [w_next s]) by (rewrite conns_app; reflexivity).
        destruct S' as [S1 S2 S3 S4 S5 S6 S7 S8 S9]. unfold commands, tags, commands in *. cbn [w_kids w_next w_ended w_up w_down w_lost] in *. split.
        -- constructor; unfold tags, commands; cbn [w_kids w_next w_ended w_up w_down w_lost]; rewrite ?Ee, ?Ec; try assumption.
           ++ apply (Permutation_NoDup (Permutation_cons_append _ _)). constructor; [|exact S2]. intros X. specialize (S4 _ X). lia.
           ++ intros e I. specialize (S3 e I). lia.
           ++ intros n I. apply in_app_or in I as [I|[<-|[]]]; [specialize (S4 n I)|]; lia.
        -- apply follows_nil; unfold tags, commands; cbn [w_kids]; rewrite Ee; [reflexivity|]. intros _ e I. left. apply stays; [exact I|]. apply view_eq; cbn [w_up w_down]; [reflexivity|]. rewrite D. apply told_client.
      * rewrite <- (o_lost _ S) at 1. rewrite (o_lost _ S). apply good_quiet; auto.
        -- apply incl_refl.
        -- apply (o_conns _ S).
        -- intros e. rewrite D. symmetry. apply told_client.
        -- intros n m H. rewrite D. right. exact H.
        -- intros m H. apply (o_none _ S). rewrite D. right. exact H.
    + (* SELF *)
      change (worker_recv (msg_dbdump p)) with (Ok (J_self SELF_DBDUMP, false)). cbn [obind]. change (m_ext (msg_dbdump p)) with false. unfold lose. cbn [w_kids w_next w_ended w_up w_down w_lost]. change (SELF_DBDUMP =? SELF_DBDUMP)%N with true. cbv match.
      unfold new_entry. destruct (init_ok (snd self_reg)) as (c & Ini). rewrite Ini. cbn [obind]. rewrite (o_lost _ S). eexists. split; [reflexivity|].
      set (e := Entry (w_next s) (fst self_reg) (snd self_reg) (NUL, NUL) false c).
      assert (Pe : Permutation (entries (w_kids s ++ [Alone e])) (commands s ++ [e])) by (rewrite entries_app; reflexivity).
      assert (Dn : incl down (w_down s)) by (rewrite D; intros x X; right; exact X).
      destruct (sound_new s e (w_kids s ++ [Alone e]) down S Pe) as (S' & T).
      * rewrite conns_app. cbn. apply app_nil_r.
      * reflexivity.
      * left. reflexivity.
      * exact Ini.
      * exact Dn.
      * split; [exact S'|]. split; [exists [tag e]; exact T|]. intros _ y Y. apply (Permutation_in _ Pe) in Y. apply in_app_or in Y as [Y|[<-|[]]].
        -- left. apply stays; [exact Y|]. apply view_eq; cbn [w_up w_down]; [reflexivity|]. rewrite D. apply told_dbdump.
        -- right. apply new_runs; auto.
    + (* UMONITOR *)
      change (worker_recv msg_umonitor) with (Ok (J_sched SCAN false, false)). cbn [obind]. change (m_ext msg_umonitor) with false. unfold lose. cbn [andb w_kids w_next w_ended w_up w_down w_lost]. rewrite (o_lost _ S).
      destruct (find_name SCAN (w_kids s)) as [e|] eqn:F.
      * apply find_name_in in F as (I & N). eapply (good_sched s _ _ down e false W_Umonitor S En D I).
        -- reflexivity.
        -- intros _. rewrite D, told_umonitor, N, name_eqb_refl. split; [reflexivity|]. destruct (o_each _ S e I) as (R & _). rewrite N in R. rewrite (regs_scan _ R). reflexivity.
        -- intros Di y Y Ny. rewrite D, told_umonitor. destruct (name_eqb_spec (e_name y) SCAN) as [E|]; [|reflexivity]. exfalso. apply Ny, (same_name _ _ _ Di Y I). congruence.
      * eexists. split; [reflexivity|].
        destruct (sound_entries s (w_kids s) (w_up s) down (w_ended s) S (Permutation_refl _) (incl_refl _) (o_conns _ S) (fun H => H) (incl_refl _)) as (S' & T); [intros n m H; apply (o_some _ S); rewrite D; right; exact H|intros m H; apply (o_none _ S); rewrite D; right; exact H|].
        split; [exact S'|]. apply follows_nil; [exact T|]. intros _ e I. left. apply stays; [exact I|]. apply view_eq; cbn [w_up w_down]; [reflexivity|]. rewrite D, told_umonitor.
        destruct (name_eqb_spec (e_name e) SCAN) as [E|]; [|reflexivity]. exfalso. destruct (find_name_some SCAN (w_kids s) e I E) as (x & X). congruence.
Qed.
(* A request *)
Lemma conn_adds k e l : NoDup (conns l) -> existsb (is_conn k) l = true ->
  let f x := match x with Conn n l => if n =? k then Conn n (l ++ [e]) else x | Alone _ => x end in Permutation (entries (map f l)) (entries l ++ [e]) /\ conns (map f l) = conns l.
Proof.
  intros N X f. assert (Cf : forall l, conns (map f l) = conns l) by (clear; induction l as [|x l IH]; [reflexivity|]; destruct x as [n es|y]; cbn [map f]; [destruct (n =? k); cbn; f_equal; exact IH|exact IH]).
  split; [|apply Cf]. assert (Nf : forall l, ~ In k (conns l) -> map f l = l).
  { clear. induction l as [|x l IH]; intros H; [reflexivity|]. cbn [map]. destruct x as [n es|y]; cbn [f].
    - destruct (Nat.eqb_spec n k) as [->|]; [exfalso; apply H; left; reflexivity|]. rewrite IH; [reflexivity|]. intros I. apply H. right. exact I.
    - rewrite IH; [reflexivity|exact H]. }
  induction l as [|x l IH]; [discriminate X|]. cbn [existsb] in X. destruct x as [n es|y].
  - cbn [map f]. change (conns (Conn n es :: l)) with (n :: conns l) in N. inversion N as [|? ? N1 N2]; subst. cbn [is_conn] in X. destruct (Nat.eqb_spec n k) as [->|Nk].
    + rewrite Nf by exact N1. change (entries (Conn k (es ++ [e]) :: l)) with ((es ++ [e]) ++ entries l). change (entries (Conn k es :: l)) with (es ++ entries l). rewrite <- !app_assoc. apply Permutation_app_head, Permutation_app_comm.
    + change (entries (Conn n es :: ?a)) with (es ++ entries a). change (entries (Conn n es :: map f l)) with (es ++ entries (map f l)). change (entries (Conn n es :: l)) with (es ++ entries l). rewrite <- app_assoc. apply Permutation_app_head, IH; assumption.
  - cbn [map f]. change (entries (Alone y :: map f l)) with ([y] ++ entries (map f l)). change (entries (Alone y :: l)) with ([y] ++ entries l). rewrite <- app_assoc. apply Permutation_app_head, IH; [exact N|exact X].
Qed.
Lemma good_request s k cmd flags : sound s -> good_step s (step_request s k cmd flags).
Proof.
  intros S. unfold step_request. destruct (existsb (is_conn k) (w_kids s)) eqn:X; [|apply good_same, S]. destruct (nth_error client_regs cmd) as [r|] eqn:G; [|apply good_same, S].
  unfold new_entry. destruct (init_ok (snd r)) as (c & Ini). rewrite Ini. cbn [obind]. rewrite (o_lost _ S). eexists. split; [reflexivity|].
  set (e := Entry (w_next s) (fst r) (snd r) flags true c). destruct (conn_adds k e (w_kids s) (o_conns _ S) X) as (Pe & Ce).
  destruct (sound_new s e _ (w_down s) S Pe Ce) as (S' & T).
  - reflexivity.
  - right. cbn [e e_name e_reg]. rewrite <- surjective_pairing. exact (nth_error_In _ _ G).
  - exact Ini.
  - apply incl_refl.
  - split; [exact S'|]. split; [exists [tag e]; exact T|]. intros _ y Y. apply (Permutation_in _ Pe) in Y. apply in_app_or in Y as [Y|[<-|[]]].
    + left. apply stays; [exact Y|]. apply view_eq; reflexivity.
    + right. apply new_runs; auto using incl_refl.
Qed.
(* Handlers and timers *)
Lemma good_handler s n a : sound s -> w_ended s = false -> good_step s (step_handler s n a).
Proof.
  intros S En. unfold step_handler. destruct (find_num n (w_kids s)) as [e|] eqn:F; [|apply good_same, S]. apply find_num_in in F as (I & Nu). destruct (c_armed (e_cmd e)) eqn:Ar; [|apply good_same, S].
  destruct (o_each _ S e I) as (R & V & Se & Ee). specialize (Ee En). set (a' := settle e _ a).
  destruct (handler_inv _ _ a' V Ar Ee) as (c & H & Vc & _). rewrite H. cbn [obind]. rewrite (o_lost _ S). eexists. split; [reflexivity|].
  set (kids0 := set_entry (with_cmd e (with_sent c [])) (w_kids s)). set (kids := match conn_of n (w_kids s) with Some _ => _ | None => _ end).
  assert (K : Permutation (entries kids) (map (put (with_cmd e (with_sent c []))) (commands s)) /\ incl (conns kids) (conns (w_kids s)) /\ NoDup (conns kids)).
  { assert (K0 : Permutation (entries kids0) (map (put (with_cmd e (with_sent c []))) (commands s)) /\ incl (conns kids0) (conns (w_kids s)) /\ NoDup (conns kids0)).
    { unfold kids0. rewrite set_entries, set_conns. split; [reflexivity|]. split; [apply incl_refl|apply (o_conns _ S)]. }
    unfold kids. destruct (conn_of n (w_kids s)) as [k|]; [|exact K0]. destruct (c_resbuf (e_cmd e) && _ && _); [|exact K0]. destruct K0 as (P0 & C0 & N0).
    destruct (cleanup_conns k kids0) as (C1 & N1). split; [etransitivity; [apply cleanup_entries|exact P0]|]. split; [intros x X; apply C0, C1, X|apply N1, N0]. }
  clearbody kids. destruct K as (P & C1 & C2).
  destruct (sound_put s e (with_sent c []) (w_up s ++ map (fun m => (n, ask m (e_flags e) (e_name e))) (c_sent c)) (w_down s) (c_ended c) kids S I P C1 C2) as (S' & T).
  - exact Vc.
  - reflexivity.
  - intros X. split; [exact En|exact X].
  - intros n' m' X. apply in_app_or in X as [X|X]; [apply (o_up _ S), X|]. apply in_map_iff in X as (k & X & _). injection X as <- <-. exists (e_name e), (e_reg e), (e_flags e), k. split; [|reflexivity].
    rewrite <- Nu. exact (in_map tag _ _ I).
  - apply (o_some _ S).
  - apply (o_none _ S).
  - split; [exact S'|]. apply follows_nil; [exact T|]. intros _ y Y. left. apply (Permutation_in _ P) in Y. apply (put_in _ _ _ _ (o_nums _ S) I) in Y as [->|(Y & Ny)].
    + exists e. split; [exact I|]. split; [reflexivity|]. exists [A_handler a']. cbn [sys_steps]. unfold view at 1. cbn [sys_step s_cmd s_in].
      change (c_armed (with_sent (e_cmd e) (asked (e_num e) (w_up s)))) with (c_armed (e_cmd e)). change (c_ended (with_sent (e_cmd e) (asked (e_num e) (w_up s)))) with (c_ended (e_cmd e)). rewrite Ar, Ee. cbn [andb negb].
      replace (with_sent (e_cmd e) (asked (e_num e) (w_up s))) with (shift (asked (e_num e) (w_up s)) (e_cmd e)) by (unfold shift; rewrite Se, app_nil_r; reflexivity).
      rewrite handler_framed, H. cbn [obind]. unfold view. cbn [w_up w_down with_cmd e_num e_cmd]. rewrite asked_app, <- Nu, asked_sent. reflexivity.
    + apply stays; [exact Y|]. apply view_eq; cbn [w_up w_down]; [|reflexivity]. rewrite asked_app, asked_sent_other by congruence. rewrite app_nil_r. reflexivity.
Qed.
Lemma good_timer s n : sound s -> w_ended s = false -> good_step s (step_timer s n).
Proof.
  intros S En. unfold step_timer. destruct (find_num n (w_kids s)) as [e|] eqn:F; [|apply good_same, S]. apply find_num_in in F as (I & Nu). destruct (c_timer (e_cmd e)) eqn:Ti; [|apply good_same, S].
  destruct (o_each _ S e I) as (R & V & Se & Ee). specialize (Ee En). destruct (timer_inv _ _ V Ee Ti) as (c & r & H & Vc & _ & _ & _ & Sc & _ & Ec). rewrite H. cbn [obind]. unfold with_kids. rewrite (o_lost _ S). eexists. split; [reflexivity|].
  destruct (sound_put s e c (w_up s) (w_down s) (w_ended s) (set_entry (with_cmd e c) (w_kids s)) S I) as (S' & T).
  - rewrite set_entries. reflexivity.
  - rewrite set_conns. apply incl_refl.
  - rewrite set_conns. apply (o_conns _ S).
  - exact Vc.
  - congruence.
  - intros X. split; [exact X|congruence].
  - apply (o_up _ S).
  - apply (o_some _ S).
  - apply (o_none _ S).
  - split; [exact S'|]. apply follows_nil; [exact T|]. intros _ y Y. left. unfold commands in Y. cbn [w_kids] in Y. rewrite set_entries in Y. apply (put_in _ _ _ _ (o_nums _ S) I) in Y as [->|(Y & Ny)].
    + exists e. split; [exact I|]. split; [reflexivity|]. exists [A_timer]. cbn [sys_steps]. unfold view at 1. cbn [sys_step s_cmd s_in].
      change (c_timer (with_sent (e_cmd e) (asked (e_num e) (w_up s)))) with (c_timer (e_cmd e)). change (c_ended (with_sent (e_cmd e) (asked (e_num e) (w_up s)))) with (c_ended (e_cmd e)). rewrite Ti, Ee. cbn [andb negb].
      replace (with_sent (e_cmd e) (asked (e_num e) (w_up s))) with (shift (asked (e_num e) (w_up s)) (e_cmd e)) by (unfold shift; rewrite Se, app_nil_r; reflexivity).
      rewrite change_framed, H. cbn [oshift obind]. unfold view. cbn [w_up w_down with_cmd e_num e_cmd]. unfold shift. rewrite Sc, Se, app_nil_r. reflexivity.
    + apply stays; [exact Y|]. apply view_eq; reflexivity.
Qed.
Lemma good_wstep s x : sound s -> good_step s (wstep s x).
Proof.
  intros S. unfold wstep. destruct x as [|path| |ok|ok|k cmd flags|k err|n a|n|].
  - apply good_push; auto.
  - apply good_push; eauto.
  - apply good_push; auto.
  - apply good_main, S.
  - destruct (w_ended s) eqn:E; [apply good_same, S|apply good_message; assumption].
  - destruct (w_ended s) eqn:E; [apply good_same, S|apply good_request; assumption].
  - destruct (w_ended s) eqn:E; [apply good_same, S|]. destruct (negb _); [apply good_same, S|]. rewrite (o_lost _ S). destruct (cleanup_conns k (w_kids s)) as (C1 & C2).
    apply good_quiet; auto using (o_conns _ S), (o_none _ S). exact (cleanup_entries k (w_kids s)).
  - destruct (w_ended s) eqn:E; [apply good_same, S|apply good_handler; assumption].
  - destruct (w_ended s) eqn:E; [apply good_same, S|apply good_timer; assumption].
  - rewrite (o_lost _ S). apply good_quiet; auto using incl_refl, (o_conns _ S), (o_none _ S). discriminate.
Qed.

Lemma steps_append g l1 l2 s : sys_steps g s (l1 ++ l2) = let! s' := sys_steps g s l1 in sys_steps g s' l2.
Proof. revert s. induction l1 as [|x l1 IH]; intros s; cbn [app sys_steps obind]; [reflexivity|]. destruct (sys_step g s x); cbn [obind]; [apply IH|reflexivity]. Qed.
Lemma run_append g l1 l2 : run g (l1 ++ l2) = let! s := run g l1 in sys_steps g s l2.
Proof. unfold run. destruct (init_cmd g); cbn [obind]; [apply steps_append|reflexivity]. Qed.
Lemma wsteps_app s l x : wsteps s (l ++ [x]) = let! s' := wsteps s l in wstep s' x.
Proof. revert s. induction l as [|y l IH]; intros s; cbn [app wsteps obind]; [destruct (wstep s x); reflexivity|]. destruct (wstep s y); cbn [obind]; [apply IH|reflexivity]. Qed.
Lemma fresh_sound : sound fresh.
Proof. constructor; cbn; try (constructor; fail); try (intros; contradiction). Qed.
Lemma wrun_sound l : exists s, wrun l = Ok s /\ sound s /\ (distinct s -> forall e, In e (commands s) -> exists l', run (e_reg e) l' = Ok (view e s)).
Proof.
  induction l as [|x l (s & E & S & V)] using rev_ind.
  - exists fresh. split; [reflexivity|]. split; [exact fresh_sound|]. intros _ e [].
  - unfold wrun in *. rewrite wsteps_app, E. cbn [obind]. destruct (good_wstep s x S) as (s' & E' & S' & (nw & P) & F). exists s'. split; [exact E'|]. split; [exact S'|].
    intros Di e' I'. destruct (F Di e' I') as [(e & I & Tg & l2 & St)|R]; [|exact R]. destruct (V (distinct_perm _ _ _ P Di) e I) as (l1 & R1).
    assert (Eg : e_reg e = e_reg e') by (unfold tag in Tg; congruence). exists (l1 ++ l2). rewrite run_append, <- Eg, R1. exact St.
Qed.
