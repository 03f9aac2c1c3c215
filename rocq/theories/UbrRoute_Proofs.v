From Coq Require Import Permutation.
From Verif Require Import Base UbrCmd_Model UbrCmd_Spec UbrCmd_Proofs UbrRoute_Model UbrRoute_Spec.
Local Open Scope nat_scope.

(* A handler does the same whatever is on the way already *)
Definition shift (l : list to_main_msg) (c : cmd) : cmd := with_sent c (l ++ c_sent c).
Definition oshift (l : list to_main_msg) (x : outcome (cmd * Z)) : outcome (cmd * Z) := let! (c, r) := x in Ok (shift l c, r).
Definition framed (f : cmd -> outcome (cmd * Z)) : Prop := forall l c, f (shift l c) = oshift l (f c).
Lemma framed_ok (f : cmd -> cmd * Z) : (forall l c, f (shift l c) = (shift l (fst (f c)), snd (f c))) -> framed (fun c => Ok (f c)).
Proof. intros H l c. rewrite H. destruct (f c). reflexivity. Qed.
Lemma framed_andthen f k : framed f -> framed k -> framed (fun c => andthen (f c) k).
Proof. intros F K l c. unfold andthen. rewrite F. destruct (f c) as [[c1 r]|]; cbn [oshift obind]; [|reflexivity]. destruct (r <? 0)%Z; [reflexivity|apply K]. Qed.
Lemma change_framed g s t : framed (fun c => change_state g c s t).
Proof.
  intros l [st pv sg ti rb eb me ar en se tr]. unfold change_state, shift, set_state, with_sent, is_last_stage. cbn [c_state c_stage c_timer c_resbuf c_expbuf c_mem c_armed c_ended c_sent c_trace c_prev].
  destruct (state_eqb st s); [reflexivity|].
  destruct s; try reflexivity; repeat (match goal with |- context [if ?b then _ else _] => destruct b end; try reflexivity).
Qed.
Lemma app_shift l a m : with_sent a (l ++ m) = with_sent a (l ++ m). Proof. reflexivity. Qed.
Lemma exec_framed g a : framed (fun c => exec g c a).
Proof.
  intros l c. unfold exec. change (c_mem (emit (shift l c) (Ran (c_stage (shift l c))))) with (c_mem (emit c (Ran (c_stage c)))).
  destruct (asks_main g && negb (c_mem (emit c (Ran (c_stage c))))).
  - destruct (an_exec a <? 0)%Z; [reflexivity|].
    rewrite <- (change_framed g C_EXE_WAIT 0%Z l (send (emit c (Ran (c_stage c))) M_Resources)). unfold shift, send, emit, with_sent. cbn. rewrite app_assoc. reflexivity.
  - reflexivity.
Qed.
Lemma build_framed g a : framed (fun c => Ok (build_buffers g c a)).
Proof. apply framed_ok. intros l c. unfold build_buffers. destruct (negb (exports g)); [reflexivity|]. destruct (an_build a <? 0)%Z; reflexivity. Qed.
Lemma expbuf_shift g a l c : send_expbuf g (shift l c) a = (shift l (fst (send_expbuf g c a)), snd (send_expbuf g c a)).
Proof.
  unfold send_expbuf. change (c_expbuf (shift l c)) with (c_expbuf c). destruct (c_expbuf c) as [n|]; [|reflexivity].
  destruct (to_main g); [|destruct (an_exp a <? 0)%Z; reflexivity]. destruct (n =? 0); [reflexivity|]. destruct (an_exp a <? 0)%Z; [reflexivity|].
  cbn [fst snd]. unfold shift, send, emit, with_sent, with_bufs. cbn. rewrite app_assoc. reflexivity.
Qed.
Lemma resbuf_framed a : framed (fun c => Ok (send_resbuf c a)).
Proof. apply framed_ok. intros l c. unfold send_resbuf. change (c_resbuf (shift l c)) with (c_resbuf c). destruct (c_resbuf c); cbn [negb]; [|reflexivity]. destruct (an_res a <? 0)%Z; reflexivity. Qed.
Lemma end_framed g a : framed (fun c => end_stage g c a).
Proof. intros l c. unfold end_stage. change (is_last_stage g (shift l c)) with (is_last_stage g c). destruct (is_last_stage g c); apply change_framed. Qed.
Lemma tail_framed g a r : framed (fun c => handler_tail g c a r).
Proof.
  intros l c. unfold handler_tail. change (c_state (shift l c)) with (c_state c). destruct (c_state c); try reflexivity.
  - apply (framed_andthen (fun c => Ok (send_resbuf c a)) _ (resbuf_framed a) (end_framed g a)).
  - rewrite expbuf_shift. destruct (send_expbuf g c a) as [c1 r1]. cbn [fst snd]. destruct ((r1 <? 0)%Z && negb (r1 =? - ENODATA)%Z); [reflexivity|apply end_framed].
Qed.
Lemma send_framed g a r : framed (fun c => handler_send g c a r).
Proof.
  intros l c. unfold handler_send. change (c_state (shift l c)) with (c_state c). destruct (c_state c) eqn:E; try (apply (tail_framed g a r l c)).
  - rewrite expbuf_shift. destruct (send_expbuf g c a) as [c1 r1]. cbn [fst snd]. destruct ((r1 <? 0)%Z && negb (r1 =? - ENODATA)%Z); [reflexivity|].
    rewrite change_framed. destruct (change_state g c1 _ 0) as [[c2 r2]|]; cbn [oshift obind]; [|reflexivity]. destruct (r2 <? 0)%Z; [reflexivity|apply tail_framed].
  - apply (framed_andthen (fun c => Ok (send_resbuf c a)) _ (resbuf_framed a)). apply framed_andthen; [apply change_framed|apply tail_framed].
Qed.
Lemma build_tail_framed g a r : framed (fun c => handler_build g c a r).
Proof.
  intros l c. unfold handler_build. change (c_state (shift l c)) with (c_state c). destruct (c_state c) eqn:E; try (apply (send_framed g a r l c)).
  apply (framed_andthen (fun c => Ok (build_buffers g c a)) _ (build_framed g a)). apply framed_andthen; [apply change_framed|apply send_framed].
Qed.
Lemma body_framed g a : framed (fun c => handler_body g c a).
Proof.
  intros l c. unfold handler_body. change (c_state (shift l c)) with (c_state c). change (c_prev (shift l c)) with (c_prev c).
  destruct (state_eqb (c_state c) C_TIM_OUT); [reflexivity|]. destruct (negb (state_eqb (c_state c) C_EXE_SCHED)); [reflexivity|].
  destruct (in_set (c_prev c) [C_INI; C_EXE_WAIT; C_STG_WAIT]).
  - refine (framed_andthen (fun c => change_state g c C_EXE_RUN 0) _ (change_framed g C_EXE_RUN 0%Z) _ l c). intros l' c'.
    rewrite exec_framed. destruct (exec g c' a) as [[c2 r2]|]; cbn [oshift obind]; [|reflexivity]. destruct (r2 <? 0)%Z; [reflexivity|].
    change (c_state (shift l' c2)) with (c_state c2). destruct (state_eqb (c_state c2) C_EXE_RUN); [|apply build_tail_framed].
    refine (framed_andthen (fun c => change_state g c C_RES_BUILD 0) _ (change_framed g C_RES_BUILD 0%Z) _ l' c2). apply build_tail_framed.
  - destruct (state_eqb (c_prev c) C_EXPBUF_WAIT_ACK); [|apply build_tail_framed].
    refine (framed_andthen (fun c => change_state g c C_RESBUF_L_SEND 0) _ (change_framed g C_RESBUF_L_SEND 0%Z) _ l c). apply build_tail_framed.
Qed.
Lemma handler_framed g l c a : handler g (shift l c) a = let! c := handler g c a in Ok (shift l c).
Proof.
  unfold handler. change (disarm (shift l c)) with (shift l (disarm c)). rewrite body_framed. destruct (handler_body g (disarm c) a) as [[c1 r]|]; cbn [oshift obind]; [|reflexivity].
  destruct (r <? 0)%Z; [|reflexivity]. rewrite change_framed. destruct (change_state g c1 C_ERR 0) as [[c2 r2]|]; reflexivity.
Qed.
