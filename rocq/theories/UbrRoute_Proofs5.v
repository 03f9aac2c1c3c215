From Coq Require Import Permutation.
From Verif Require Import Base UbrCmd_Model UbrCmd_Spec UbrCmd_Proofs UbrRoute_Model UbrRoute_Spec UbrRoute_Proofs UbrRoute_Proofs2 UbrRoute_Proofs3 UbrRoute_Proofs4.
Local Open Scope nat_scope.

(* An answer goes to the command that asked *)
Lemma answer_lemma l s ok s' n m d : wrun l = Ok s -> distinct s -> w_ended s = false -> w_down s = (Some n, m) :: d -> wstep s (R_message ok) = Ok s' ->
  (exists e, In e (commands s) /\ e_num e = n)
  /\ forall e', In e' (commands s') -> (e_num e' <> n -> In e' (commands s)) /\ (e_num e' = n -> c_state (e_cmd e') = C_EXE_SCHED).
Proof.
  intros Ru Di En D St. destruct (wrun_sound l) as (s0 & E0 & S & _). rewrite Ru in E0. injection E0 as <-.
  destruct (o_some _ S n m) as (nm & g & fl & k & I & ->); [rewrite D; left; reflexivity|]. apply tag_in in I as (e & I & Nu & Nm & Eg & Fl).
  split; [eauto|]. destruct (o_each _ S e I) as (R & V & _ & Ee). specialize (Ee En). assert (Na : named nm) by (rewrite <- Nm; exact (regs_named _ _ R)).
  unfold wstep in St. rewrite En in St. unfold step_message in St. rewrite D, (worker_answer k fl nm Na) in St. cbn [obind] in St. unfold lose in St. cbn [w_kids w_next w_ended w_up w_down w_lost] in St.
  destruct (find_name_some nm (w_kids s) e I Nm) as (e2 & F). rewrite F in St. apply find_name_in in F as (I2 & N2). assert (e2 = e) as -> by (apply (same_name _ _ _ Di I2 I); congruence).
  set (c0 := if match k with M_Sync => false | M_Resources => true end then with_mem (e_cmd e) else e_cmd e) in St.
  assert (V0 : inv (e_reg e) c0) by (unfold c0; destruct k; exact V). assert (Ec0 : c_ended c0 = false) by (unfold c0; destruct k; exact Ee).
  destruct (sched_inv _ _ V0 Ec0) as (c & r & Ch & _ & Eq). rewrite Ch in St. cbn [obind] in St. injection St as <-.
  assert (Sc : c_state c = C_EXE_SCHED) by (destruct Eq as [(? & ->)|(_ & ? & _)]; assumption).
  intros y Y. unfold commands, with_kids in Y. cbn [w_kids] in Y. rewrite set_entries in Y. apply (put_in _ _ _ _ (o_nums _ S) I) in Y as [->|(Y & Ny)].
  - cbn [with_cmd e_num e_cmd]. split; [intros; contradiction|auto].
  - split; [auto|]. intros X. congruence.
Qed.

(* Without a connection no response is sent *)
Definition resp (c : cmd) : nat := number_of is_responded (c_trace c).
Definition keeps (f : cmd -> outcome (cmd * Z)) : Prop := forall c c' r, f c = Ok (c', r) -> resp c' = resp c.
Lemma keeps_andthen f k : keeps f -> keeps k -> keeps (fun c => andthen (f c) k).
Proof. intros F K c c' r. unfold andthen. destruct (f c) as [[c1 r1]|] eqn:E; cbn [obind]; [|discriminate]. apply F in E. destruct (r1 <? 0)%Z; [congruence|]. intros H. apply K in H. congruence. Qed.
Lemma resp_snoc c t e : is_responded e = false -> number_of is_responded (c_trace c ++ [e]) = resp c -> t = c_trace c ++ [e] -> number_of is_responded t = resp c.
Proof. intros _ H ->. exact H. Qed.
Lemma change_keeps g s t : keeps (fun c => change_state g c s t).
Proof.
  intros c c' r. unfold change_state. destruct (state_eqb (c_state c) s); [congruence|].
  destruct s; repeat (match goal with |- context [if ?b then _ else _] => destruct b end); intros H; first [discriminate H|injection H as <- <-]; unfold resp, set_state; cbn [c_trace]; rewrite ?number_snoc; cbn [is_responded]; rewrite ?Nat.add_0_r; reflexivity.
Qed.
Lemma exec_keeps g a : keeps (fun c => exec g c a).
Proof.
  intros c c' r. unfold exec. assert (E : resp (emit c (Ran (c_stage c))) = resp c) by (unfold resp, emit; cbn [c_trace]; rewrite number_snoc; apply Nat.add_0_r).
  destruct (asks_main g && _); [|intros H; injection H as <- <-; exact E]. destruct (an_exec a <? 0)%Z; [intros H; injection H as <- <-; exact E|]. intros H. apply change_keeps in H. rewrite H. exact E.
Qed.
Lemma expbuf_keeps g a : keeps (fun c => Ok (send_expbuf g c a)).
Proof.
  intros c c' r H. injection H as H. unfold send_expbuf in H. destruct (c_expbuf c) as [n|]; [|injection H as <- _; reflexivity]. destruct (to_main g).
  - destruct (n =? 0); [injection H as <- _; reflexivity|]. destruct (an_exp a <? 0)%Z; injection H as <- _; [reflexivity|]. unfold resp, emit, send, with_bufs. cbn [c_trace]. rewrite number_snoc. apply Nat.add_0_r.
  - destruct (an_exp a <? 0)%Z; injection H as <- _; reflexivity.
Qed.
Lemma resbuf_keeps a : (an_res a < 0)%Z -> keeps (fun c => Ok (send_resbuf c a)).
Proof. intros L c c' r H. injection H as H. unfold send_resbuf in H. destruct (negb (c_resbuf c)); [injection H as <- _; reflexivity|]. replace (an_res a <? 0)%Z with true in H by lia. injection H as <- _. reflexivity. Qed.
Lemma build_keeps g a : keeps (fun c => Ok (build_buffers g c a)).
Proof. intros c c' r H. injection H as H. unfold build_buffers in H. destruct (negb (exports g)); [injection H as <- _; reflexivity|]. destruct (an_build a <? 0)%Z; injection H as <- _; reflexivity. Qed.
Lemma end_keeps g a : keeps (fun c => end_stage g c a).
Proof. intros c c' r. unfold end_stage. destruct (is_last_stage g c); apply change_keeps. Qed.
Lemma tail_keeps g a r : (an_res a < 0)%Z -> keeps (fun c => handler_tail g c a r).
Proof.
  intros L c c' r'. unfold handler_tail. destruct (c_state c); try (intros H; injection H as <- _; reflexivity).
  - apply (keeps_andthen (fun c => Ok (send_resbuf c a)) _ (resbuf_keeps a L) (end_keeps g a)).
  - destruct (send_expbuf g c a) as [c1 r1] eqn:E. pose proof (expbuf_keeps g a c c1 r1) as K. cbv beta in K. rewrite E in K. specialize (K eq_refl).
    destruct ((r1 <? 0)%Z && _); [intros H; injection H as <- _; exact K|]. intros H. apply end_keeps in H. congruence.
Qed.
Lemma send_keeps g a r : (an_res a < 0)%Z -> keeps (fun c => handler_send g c a r).
Proof.
  intros L c c' r'. unfold handler_send. destruct (c_state c) eqn:Es; try (apply (tail_keeps g a r L c)).
  - destruct (send_expbuf g c a) as [c1 r1] eqn:E. pose proof (expbuf_keeps g a c c1 r1) as K. cbv beta in K. rewrite E in K. specialize (K eq_refl).
    destruct ((r1 <? 0)%Z && _); [intros H; injection H as <- _; exact K|]. destruct (change_state g c1 _ 0) as [[c2 r2]|] eqn:E2; cbn [obind]; [|discriminate]. apply change_keeps in E2.
    destruct (r2 <? 0)%Z; [intros H; injection H as <- _; congruence|]. intros H. apply (tail_keeps g a r2 L) in H. congruence.
  - apply (keeps_andthen (fun c => Ok (send_resbuf c a)) _ (resbuf_keeps a L)). apply keeps_andthen; [apply change_keeps|apply tail_keeps, L].
Qed.
Lemma hbuild_keeps g a r : (an_res a < 0)%Z -> keeps (fun c => handler_build g c a r).
Proof.
  intros L c c' r'. unfold handler_build. destruct (c_state c); try (apply (send_keeps g a r L c)).
  apply (keeps_andthen (fun c => Ok (build_buffers g c a)) _ (build_keeps g a)). apply keeps_andthen; [apply change_keeps|apply send_keeps, L].
Qed.
Lemma handler_keeps g c a c' : (an_res a < 0)%Z -> handler g c a = Ok c' -> resp c' = resp c.
Proof.
  intros L. unfold handler. assert (B : keeps (fun c => handler_body g c a)).
  { intros c0 c1 r. unfold handler_body. destruct (state_eqb (c_state c0) C_TIM_OUT); [congruence|]. destruct (negb _); [congruence|]. destruct (in_set (c_prev c0) _).
    - refine (keeps_andthen (fun c => change_state g c C_EXE_RUN 0) _ (change_keeps g C_EXE_RUN 0%Z) _ c0 c1 r). intros c2 c3 r3.
      destruct (exec g c2 a) as [[c4 r4]|] eqn:E; cbn [obind]; [|discriminate]. apply exec_keeps in E. destruct (r4 <? 0)%Z; [congruence|]. destruct (state_eqb (c_state c4) C_EXE_RUN).
      + intros H. apply (keeps_andthen (fun c => change_state g c C_RES_BUILD 0) _ (change_keeps g C_RES_BUILD 0%Z) (hbuild_keeps g a 0%Z L)) in H. congruence.
      + intros H. apply (hbuild_keeps g a _ L) in H. congruence.
    - destruct (state_eqb (c_prev c0) C_EXPBUF_WAIT_ACK); [|apply hbuild_keeps, L].
      apply (keeps_andthen (fun c => change_state g c C_RESBUF_L_SEND 0) _ (change_keeps g C_RESBUF_L_SEND 0%Z) (hbuild_keeps g a 0%Z L)). }
  destruct (handler_body g (disarm c) a) as [[c1 r]|] eqn:E; cbn [obind]; [|discriminate]. apply B in E. change (resp (disarm c)) with (resp c) in E.
  destruct (r <? 0)%Z; [|congruence]. destruct (change_state g c1 C_ERR 0) as [[c2 r2]|] eqn:E2; cbn [obind]; [|discriminate]. apply change_keeps in E2. intros H. injection H as <-. change (resp (end_loop c2)) with (resp c2). congruence.
Qed.
(* A command of a client whose connection is gone *)
Definition orphan (n : nat) (s : wsys) : Prop := exists e, In (Alone e) (w_kids s) /\ e_num e = n /\ e_client e = true /\ resp (e_cmd e) = 0.
Lemma orphan_conn n s : sound s -> orphan n s -> conn_of n (w_kids s) = None.
Proof.
  intros S (e & I & Nu & _). unfold conn_of. destruct (find _ (w_kids s)) as [[k l|e']|] eqn:F; [|reflexivity..]. exfalso. apply find_some in F as (J & X). apply existsb_exists in X as (y & Y & Ey).
  pose proof (o_nums _ S) as N. unfold commands in N. clear S. induction (w_kids s) as [|x kids IH]; [destruct I|].
  change (entries (x :: kids)) with (kid_entries x ++ entries kids) in N. rewrite map_app in N. destruct I as [->|I], J as [J|J].
  - discriminate J.
  - cbn [kid_entries map app] in N. inversion N as [|? ? N1 _]; subst. apply N1. apply in_map_iff. exists y. split; [lia|]. apply in_flat_map. exists (Conn k l). split; assumption.
  - subst x. cbn [kid_entries] in N. assert (In (e_num e) (map e_num (entries kids))) by (apply in_map, in_flat_map; exists (Alone e); split; [exact I|left; reflexivity]).
    assert (In (e_num e) (map e_num l)) by (replace (e_num e) with (e_num y) by lia; apply in_map, Y).
    clear - N H H0. induction (map e_num l) as [|z m IH]; [destruct H0|]. cbn in N. inversion N as [|? ? N1 N2]; subst. destruct H0 as [->|H0]; [apply N1, in_or_app; right; exact H|auto].
  - apply IH; [exact I|exact J|]. clear - N. induction (map e_num (kid_entries x)) as [|z m IH]; [exact N|]. cbn in N. inversion N; auto.
Qed.
Lemma alone_in e l : In (Alone e) l -> In e (entries l).
Proof. intros I. apply in_flat_map. exists (Alone e). split; [exact I|left; reflexivity]. Qed.
Definition orphan_in (n : nat) (kids : list kid) : Prop := exists e, In (Alone e) kids /\ e_num e = n /\ e_client e = true /\ resp (e_cmd e) = 0.
Lemma orphan_set n s x c : sound s -> orphan n s -> In x (commands s) -> (e_num x = n -> resp c = resp (e_cmd x)) -> orphan_in n (set_entry (with_cmd x c) (w_kids s)).
Proof.
  intros S (e & I & Nu & Cl & Re) Ix K. destruct (Nat.eq_dec (e_num x) n) as [E|E].
  - assert (x = e) as -> by (apply (same_num _ _ _ (o_nums _ S) Ix (alone_in _ _ I)); congruence). exists (with_cmd e c).
    split; [|split; [exact Nu|]; split; [exact Cl|]; cbn [with_cmd e_cmd]; rewrite (K E); exact Re].
    unfold set_entry. apply in_map_iff. exists (Alone e). split; [|exact I]. cbn [with_cmd e_num]. rewrite Nat.eqb_refl. reflexivity.
  - exists e. split; [|auto]. unfold set_entry. apply in_map_iff. exists (Alone e). split; [|exact I]. cbn [with_cmd e_num]. destruct (Nat.eqb_spec (e_num e) (e_num x)); [congruence|reflexivity].
Qed.
Lemma orphan_cleanup n k l : orphan_in n l -> orphan_in n (cleanup k l).
Proof. intros (e & I & H). exists e. split; [|exact H]. unfold cleanup. apply in_or_app. left. apply filter_In. split; [exact I|reflexivity]. Qed.
Lemma orphan_wstep n s x s' : sound s -> orphan n s -> wstep s x = Ok s' -> orphan n s'.
Proof.
  intros S O. change (orphan_in n (w_kids s)) in O. change (wstep s x = Ok s' -> orphan_in n (w_kids s')). unfold wstep.
  assert (Same : forall s' : wsys, w_kids s' = w_kids s -> orphan_in n (w_kids s')) by (intros ? ->; exact O).
  destruct x as [|path| |ok|ok|k cmd flags|k err|n' a|n'|].
  - intros H; injection H as <-; apply Same; reflexivity.
  - intros H; injection H as <-; apply Same; reflexivity.
  - intros H; injection H as <-; apply Same; reflexivity.
  - intros H. injection H as <-. unfold step_main. destruct (w_up s) as [|[n' m] up]; [exact O|]. unfold lose. cbn [w_kids]. destruct (find_num n' (w_kids s)) as [e|] eqn:F; [|exact O]. destruct (ra_merge _); [|exact O].
    apply find_num_in in F as (I & _). apply orphan_set; auto. intros _. unfold resp, emit. cbn [c_trace]. rewrite number_snoc. apply Nat.add_0_r.
  - destruct (w_ended s); [intros H; injection H as <-; exact O|]. unfold step_message. destruct (w_down s) as [|[o m] down]; [intros H; injection H as <-; exact O|]. destruct (worker_recv m) as [[j cl]|]; cbn [obind]; [|discriminate].
    destruct j as [|id mem| |cmd]; unfold lose; cbn [w_kids w_next w_ended w_up w_down w_lost].
    + intros H; injection H as <-; exact O.
    + destruct (find_name id (w_kids s)) as [e|] eqn:F; [|intros H; injection H as <-; exact O]. apply find_name_in in F as (I & _).
      destruct (change_state (e_reg e) _ C_EXE_SCHED 0) as [[c r]|] eqn:Ch; cbn [obind]; [|discriminate]. intros H; injection H as <-. cbn [with_kids w_kids]. apply orphan_set; auto.
      intros _. apply change_keeps in Ch. rewrite Ch. destruct mem; reflexivity.
    + destruct ok; intros H; injection H as <-; cbn [w_kids]; [|exact O]. destruct O as (e & I & O). exists e. split; [apply in_or_app; left; exact I|exact O].
    + destruct (cmd =? SELF_DBDUMP)%N; [|intros H; injection H as <-; exact O]. destruct (new_entry _ _ _ _) as [e0|]; cbn [obind]; [|discriminate]. intros H; injection H as <-. cbn [w_kids].
      destruct O as (e & I & O). exists e. split; [apply in_or_app; left; exact I|exact O].
  - destruct (w_ended s); [intros H; injection H as <-; exact O|]. unfold step_request. destruct (existsb _ _); [|intros H; injection H as <-; exact O]. destruct (nth_error client_regs cmd) as [r|]; [|intros H; injection H as <-; exact O].
    destruct (new_entry _ _ _ _) as [e0|]; cbn [obind]; [|discriminate]. intros H; injection H as <-. cbn [w_kids]. destruct O as (e & I & O). exists e. split; [|exact O]. apply in_map_iff. exists (Alone e). split; [reflexivity|exact I].
  - destruct (w_ended s); [intros H; injection H as <-; exact O|]. destruct (negb _); intros H; injection H as <-; [exact O|]. cbn [w_kids]. apply orphan_cleanup, O.
  - destruct (w_ended s); [intros H; injection H as <-; exact O|]. unfold step_handler. destruct (find_num n' (w_kids s)) as [e|] eqn:F; [|intros H; injection H as <-; exact O]. apply find_num_in in F as (I & Nu).
    destruct (c_armed (e_cmd e)); [|intros H; injection H as <-; exact O]. destruct (handler _ _ _) as [c|] eqn:H; cbn [obind]; [|discriminate].
    assert (O1 : orphan_in n (set_entry (with_cmd e (with_sent c [])) (w_kids s))).
    { apply orphan_set; auto. intros E. assert (n' = n) by congruence. subst n'. pose proof O as O'. destruct O' as (e1 & I1 & N1 & Cl & _).
      assert (e = e1) as -> by (apply (same_num _ _ _ (o_nums _ S) I (alone_in _ _ I1)); congruence). rewrite E in H. rewrite (orphan_conn n s S O) in H. unfold settle in H. rewrite Cl in H. cbn [negb] in H.
      apply handler_keeps in H; [exact H|]. cbn [an_res]. lia. }
    intros X; injection X as <-. cbn [w_kids]. destruct (conn_of n' (w_kids s)) as [k|]; [|exact O1]. destruct (c_resbuf (e_cmd e) && _ && _); [apply orphan_cleanup, O1|exact O1].
  - destruct (w_ended s); [intros H; injection H as <-; exact O|]. unfold step_timer. destruct (find_num n' (w_kids s)) as [e|] eqn:F; [|intros H; injection H as <-; exact O]. apply find_num_in in F as (I & Nu).
    destruct (c_timer (e_cmd e)); [|intros H; injection H as <-; exact O]. destruct (change_state _ _ C_TIM_OUT 0) as [[c r]|] eqn:Ch; cbn [obind]; [|discriminate]. intros H; injection H as <-. cbn [with_kids w_kids].
    apply orphan_set; auto. intros _. apply change_keeps in Ch. exact Ch.
  - intros H; injection H as <-; apply Same; reflexivity.
Qed.
Lemma orphan_wsteps l n s s' : sound s -> orphan n s -> wsteps s l = Ok s' -> sound s' /\ orphan n s'.
Proof.
  revert s. induction l as [|x l IH]; intros s S O; cbn [wsteps].
  - intros H; injection H as <-. auto.
  - destruct (good_wstep s x S) as (s1 & E & S1 & _). rewrite E. cbn [obind]. apply IH; [exact S1|]. exact (orphan_wstep n s x s1 S O E).
Qed.
(* The client left before the response: no second stage, and no end but failure *)
Lemma left_lemma l s n e l2 s' e' : wrun l = Ok s -> In (Alone e) (w_kids s) -> e_num e = n -> e_client e = true -> ~ In Responded (c_trace (e_cmd e)) ->
  wsteps s l2 = Ok s' -> In e' (commands s') -> e_num e' = n ->
  ~ In Responded (c_trace (e_cmd e')) /\ ~ In Finished (c_trace (e_cmd e')) /\ forall k, 2 <= k -> ~ In (Ran k) (c_trace (e_cmd e')).
Proof.
  intros Ru I Nu Cl Re St I' Nu'. destruct (wrun_sound l) as (s0 & E0 & S & _). rewrite Ru in E0. injection E0 as <-.
  assert (Z : resp (e_cmd e) = 0). { destruct (resp (e_cmd e)) eqn:E; [reflexivity|]. exfalso. destruct (number_ex is_responded (c_trace (e_cmd e))) as ([] & X & Y); try discriminate Y; [unfold resp in E; lia|]. auto. }
  destruct (orphan_wsteps l2 n s s' S) as (S' & (e1 & I1 & N1 & _ & R1)); [exists e; auto|exact St|].
  assert (e' = e1) as -> by (apply (same_num _ _ _ (o_nums _ S') I' (alone_in _ _ I1)); congruence).
  assert (NR : ~ In Responded (c_trace (e_cmd e1))) by (intros X; apply (number_in is_responded _ _ X eq_refl), R1).
  destruct (o_each _ S' e1 (alone_in _ _ I1)) as (_ & (_ & _ & _ & _ & _ & _ & _ & G & _) & _).
  split; [exact NR|]. split.
  - intros X. apply in_split in X as (a & b & X). destruct (G a Finished b X) as (Y & _). apply NR. rewrite X. apply in_or_app. left. apply Y. left. reflexivity.
  - intros k K X. apply in_split in X as (a & b & X). destruct (G a (Ran k) b X) as (Y & _). apply NR. rewrite X. apply in_or_app. left. apply Y. right. eauto.
Qed.
