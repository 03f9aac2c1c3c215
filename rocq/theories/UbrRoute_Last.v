From Coq Require Import Permutation.
From Verif Require Import Base UbrCmd_Model UbrCmd_Spec UbrCmd_Proofs UbrRoute_Model UbrRoute_Spec UbrRoute_Proofs UbrRoute_Proofs2 UbrRoute_Proofs3 UbrRoute_Proofs4.
Local Open Scope nat_scope.

Lemma messages_lemma l : exists s, wrun l = Ok s /\ w_lost s = 0.
Proof. destruct (wrun_sound l) as (s & E & S & _). exists s. split; [exact E|apply (o_lost _ S)]. Qed.
Lemma answer_names_lemma nm k fl ok a : 1 <= length nm -> ~ In NUL nm -> ra_reply (proxy_recv (ask k fl nm) ok) = Some a ->
  exists mem closed, worker_recv a = Ok (J_sched nm mem, closed) /\ (m_ext a = true -> closed = true).
Proof.
  intros L N H. rewrite proxy_ask in H. assert (a = answer k fl nm) as -> by (destruct k; cbn [ra_reply] in H; [|destruct ok]; congruence).
  rewrite worker_answer by (split; assumption). eexists _, _. split; [reflexivity|]. destruct k; cbn; auto.
Qed.
Lemma unexpected_lemma :
  (forall data ok, header_cat data <> CAT_SYSTEM \/ header_cmd data <> CMD_SYNC -> ra_closed (proxy_recv (Message data true) ok) = false)
  /\ (forall data j closed, worker_recv (Message data true) = Ok (j, closed) -> header_cat data <> CAT_CLIENT -> header_cat data <> CAT_SYSTEM \/ header_cmd data <> CMD_RESOURCES -> closed = false /\ j <> J_conn).
Proof.
  split.
  - intros data ok H. unfold proxy_recv. cbn [m_data m_ext]. destruct (length data <? HEADER_SIZE); [reflexivity|]. destruct (N.eqb_spec (header_cat data) CAT_SYSTEM) as [E|]; cbn [negb]; [|reflexivity].
    destruct (N.eqb_spec (header_cmd data) CMD_SYNC) as [E2|]; [destruct H; contradiction|]. destruct (header_cmd data =? CMD_RESOURCES)%N; reflexivity.
  - intros data j closed W Nc H. unfold worker_recv in W. cbn [m_data m_ext negb] in W. destruct (length data <? HEADER_SIZE); [injection W as <- <-; split; [reflexivity|discriminate]|].
    destruct (N.eqb_spec (header_cat data) CAT_SYSTEM) as [E|].
    + destruct (header_cmd data =? CMD_SYNC)%N.
      * destruct (_ <? 2); [injection W as <- <-; split; [reflexivity|discriminate]|]. destruct (c_str _); cbn [obind] in W; [|discriminate W]. injection W as <- <-. split; [reflexivity|discriminate].
      * destruct (header_cmd data =? CMD_UMONITOR)%N; [injection W as <- <-; split; [reflexivity|discriminate]|].
        destruct (N.eqb_spec (header_cmd data) CMD_RESOURCES); [destruct H; contradiction|]. injection W as <- <-. split; [reflexivity|discriminate].
    + destruct (N.eqb_spec (header_cat data) CAT_CLIENT); [contradiction|]. destruct (header_cat data =? CAT_SELF)%N; injection W as <- <-; (split; [reflexivity|discriminate]).
Qed.
Lemma c_str_ub nm : ~ In NUL nm -> c_str nm = UB.
Proof.
  induction nm as [|c nm IH]; intros H; [reflexivity|]. cbn [c_str]. destruct (Ascii.eqb_spec c NUL) as [->|_]; [exfalso; apply H; left; reflexivity|]. rewrite IH; [reflexivity|]. intros I. apply H. right. exact I.
Qed.
Lemma unterminated_lemma nm : 2 <= length nm -> ~ In NUL nm -> worker_recv (Message (header CAT_SYSTEM CMD_SYNC NUL (NUL, NUL) ++ nm) false) = UB.
Proof.
  intros L N. unfold worker_recv. cbn [m_data m_ext]. rewrite app_length. change (length (header CAT_SYSTEM CMD_SYNC NUL (NUL, NUL))) with 16.
  replace (16 + length nm <? HEADER_SIZE) with false by (unfold HEADER_SIZE; lia). match goal with |- context [(?x =? CAT_SYSTEM)%N] => change (x =? CAT_SYSTEM)%N with true end.
  match goal with |- context [(?x =? CMD_SYNC)%N] => change (x =? CMD_SYNC)%N with true end. cbv match. replace (16 + length nm - HEADER_SIZE <? 2) with false by (unfold HEADER_SIZE; lia).
  change (skipn HEADER_SIZE (header CAT_SYSTEM CMD_SYNC NUL (NUL, NUL) ++ nm)) with nm. rewrite (c_str_ub nm N). reflexivity.
Qed.
Lemma alone_lemma l s e : wrun l = Ok s -> distinct s -> In e (commands s) -> exists l', run (e_reg e) l' = Ok (view e s).
Proof. intros R D I. destruct (wrun_sound l) as (s0 & E & _ & H). rewrite R in E. injection E as <-. exact (H D e I). Qed.
Lemma each_lemma l s e : wrun l = Ok s -> distinct s -> In e (commands s) ->
  number_of is_responded (c_trace (e_cmd e)) <= 1 /\ number_of is_finished (c_trace (e_cmd e)) <= 1 /\ number_of is_failed (c_trace (e_cmd e)) <= 1.
Proof.
  intros R D I. destruct (alone_lemma l s e R D I) as (l' & H). pose proof (one_response_lemma _ _ _ H) as A. pose proof (finished_once _ _ _ H) as A2. pose proof (failed_once _ _ _ H) as A3. auto.
Qed.
Lemma stay_lemma l s k err s' : wrun l = Ok s -> wstep s (R_close k err) = Ok s' -> forall e, In e (commands s) <-> In e (commands s').
Proof.
  intros R. unfold wstep. destruct (w_ended s); [intros H; injection H as <-; tauto|]. destruct (negb _); intros H; injection H as <-; [tauto|]. intros e. unfold commands. cbn [w_kids].
  pose proof (cleanup_entries k (w_kids s)) as P. split; apply Permutation_in; [symmetry|]; exact P.
Qed.
