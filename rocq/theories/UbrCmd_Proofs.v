From Verif Require Import Base UbrCmd_Model UbrCmd_Spec.
Local Open Scope nat_scope.

(* All that a call of the handler can do *)
Definition finish (c : cmd) (s : cmd_state) (stage : nat) (timer res : bool) (sent : list to_main_msg) (ev : list event) (ended : bool) (c' : cmd) : Prop :=
  c_state c' = s /\ c_stage c' = stage /\ c_timer c' = timer /\ c_resbuf c' = res /\ c_mem c' = c_mem c /\ c_armed c' = false /\ c_ended c' = ended
  /\ c_sent c' = c_sent c ++ sent /\ c_trace c' = c_trace c ++ ev.
Inductive result :=
| Res (s : cmd_state) (timer res : bool) (sent : list to_main_msg) (ev : list event) (ended : bool).
Definition gives (c c' : cmd) (r : result) : Prop :=
  match r with Res s timer res sent ev ended => finish c s (c_stage c) timer res sent ev ended c' end.
(* Endings of a stage, after the response *)
Definition endings (g : reg) (c : cmd) (res : bool) (sent : list to_main_msg) (ev : list event) : list result :=
  if is_last_stage g c then [Res C_FIN (c_timer c) res sent (ev ++ [Finished]) false]
  else [Res C_STG_WAIT true res sent ev false; Res C_ERR (c_timer c) res sent (ev ++ [Failed]) true].
Definition respond (g : reg) (c : cmd) (ev : list event) : list result :=
  if c_resbuf c then Res C_ERR (c_timer c) false [] (ev ++ [Failed]) true :: endings g c false [] (ev ++ [Responded])
  else endings g c false [] ev.
Definition results (g : reg) (c : cmd) : list result :=
  if negb (state_eqb (c_state c) C_EXE_SCHED) then [Res C_ERR (c_timer c) (c_resbuf c) [] [Failed] true]
  else if in_set (c_prev c) [C_INI; C_EXE_WAIT; C_STG_WAIT] then
    let ev := [Ran (c_stage c)] in
    if asks_main g && negb (c_mem c) then
      [Res C_ERR (c_timer c) (c_resbuf c) [] (ev ++ [Failed]) true; Res C_EXE_WAIT (c_timer c) (c_resbuf c) [M_Resources] ev false]
    else
      Res C_ERR (c_timer c) (c_resbuf c) [] (ev ++ [Failed]) true ::
      if to_main g then
        if exports g then Res C_EXPBUF_WAIT_ACK (c_timer c) (c_resbuf c) [M_Sync] (ev ++ [Exported]) false :: respond g c ev
        else match c_expbuf c with
             | None => [Res C_EXPBUF_WAIT_ACK (c_timer c) (c_resbuf c) [] ev false]
             | Some _ => Res C_EXPBUF_WAIT_ACK (c_timer c) (c_resbuf c) [M_Sync] (ev ++ [Exported]) false :: respond g c ev end
      else (if c_resbuf c then [Res C_ERR (c_timer c) false [] (ev ++ [Responded; Failed]) true] else [Res C_ERR (c_timer c) false [] (ev ++ [Failed]) true]) ++ respond g c ev
  else if state_eqb (c_prev c) C_EXPBUF_WAIT_ACK then respond g c []
  else [Res C_ERR (c_timer c) (c_resbuf c) [] [Failed] true].
Ltac fields := cbn [c_state c_prev c_stage c_timer c_resbuf c_expbuf c_mem c_armed c_ended c_sent c_trace set_state emit send with_bufs disarm end_loop] in *.

(* The command in the middle of a call that began as c0 *)
Definition mid (c0 c : cmd) (s : cmd_state) (res : bool) (exb : option nat) (sent : list to_main_msg) (ev : list event) : Prop :=
  c_state c = s /\ c_stage c = c_stage c0 /\ c_timer c = c_timer c0 /\ c_resbuf c = res /\ c_expbuf c = exb /\ c_mem c = c_mem c0 /\ c_armed c = false /\ c_ended c = false
  /\ c_sent c = c_sent c0 ++ sent /\ c_trace c = c_trace c0 ++ ev.
Definition conclude (c : cmd) (r : Z) : cmd := if (r <? 0)%Z then end_loop (set_state c C_ERR (c_stage c) (c_timer c) (c_armed c)) else c.
(* The call ends with one of the results of the list *)
Definition ends_in (c0 : cmd) (x : outcome (cmd * Z)) (L : list result) : Prop :=
  exists c r, x = Ok (c, r) /\ c_state c <> C_ERR /\ exists q, In q L /\ gives c0 (conclude c r) q.
Lemma ends_weaken c0 x L L' : ends_in c0 x L -> incl L L' -> ends_in c0 x L'.
Proof. intros (c & r & E & N & q & I & G) H. exists c, r. split; [exact E|]. split; [exact N|]. exists q. split; [apply H, I|exact G]. Qed.
Lemma ends_fail c0 c r s res exb sent ev L : mid c0 c s res exb sent ev -> s <> C_ERR -> (r < 0)%Z -> In (Res C_ERR (c_timer c0) res sent (ev ++ [Failed]) true) L -> ends_in c0 (Ok (c, r)) L.
Proof.
  intros (M1 & M2 & M3 & M4 & M5 & M6 & M7 & M8 & M9 & M10) N R I. exists c, r. split; [reflexivity|]. split; [congruence|]. eexists. split; [exact I|].
  unfold conclude. rewrite (proj2 (Z.ltb_lt _ _) R). unfold gives, finish. fields. rewrite M10, app_assoc. auto 12.
Qed.
Lemma mid_state c0 c s s' res exb sent ev : mid c0 c s res exb sent ev -> s' <> C_FIN -> s' <> C_ERR -> s' <> C_STG_WAIT -> s' <> C_EXE_SCHED ->
  mid c0 (set_state c s' (c_stage c) (c_timer c) (c_armed c)) s' res exb sent ev.
Proof.
  intros (M1 & M2 & M3 & M4 & M5 & M6 & M7 & M8 & M9 & M10) N1 N2 N3 N4. unfold mid. fields. destruct s'; try congruence; repeat split; assumption.
Qed.
Lemma change_plain g c s t : state_eqb (c_state c) s = false -> in_set s [C_EXE_SCHED; C_STG_WAIT; C_TIM_OUT] = false ->
  change_state g c s t = Ok (set_state c s (c_stage c) (c_timer c) (c_armed c), 0%Z).
Proof. intros H1 H2. unfold change_state. rewrite H1. destruct s; try reflexivity; discriminate H2. Qed.

Lemma last_mid g c0 c s res exb sent ev : mid c0 c s res exb sent ev -> is_last_stage g c = is_last_stage g c0.
Proof. intros (_ & M & _). unfold is_last_stage. rewrite M. reflexivity. Qed.
Lemma end_stage_ends g c0 c s a res exb sent ev L : mid c0 c s res exb sent ev -> in_set s [C_FIN; C_STG_WAIT; C_ERR] = false ->
  incl (endings g c0 res sent ev) L -> ends_in c0 (end_stage g c a) L.
Proof.
  intros M Ns HL. unfold end_stage. rewrite (last_mid g _ _ _ _ _ _ _ M). unfold endings in HL.
  assert (M' := M). destruct M' as (M1 & M2 & M3 & M4 & M5 & M6 & M7 & M8 & M9 & M10).
  destruct (is_last_stage g c0) eqn:Li.
  - rewrite change_plain; [|rewrite M1; destruct s; (reflexivity || discriminate Ns)|reflexivity].
    eexists _, _. split; [reflexivity|]. split; [discriminate|]. eexists. split; [apply HL; left; reflexivity|].
    unfold conclude. cbn [Z.ltb Z.compare]. unfold gives, finish. fields. rewrite M10, app_assoc. auto 12.
  - unfold change_state. replace (state_eqb (c_state c) C_STG_WAIT) with false by (rewrite M1; destruct s; (reflexivity || discriminate Ns)).
    rewrite (last_mid g _ _ _ _ _ _ _ M), Li. destruct (an_timer a <? 0)%Z.
    + apply (ends_fail c0 c _ s res exb sent ev _ M); [intros ->; discriminate Ns|reflexivity|apply HL; right; left; reflexivity].
    + eexists _, _. split; [reflexivity|]. split; [discriminate|]. eexists. split; [apply HL; left; reflexivity|].
      unfold conclude. cbn [Z.ltb Z.compare]. unfold gives, finish. fields. auto 12.
Qed.
Lemma send_resbuf_mid c0 c s a res exb sent ev c' r : mid c0 c s res exb sent ev -> send_resbuf c a = (c', r) ->
  (res = false /\ mid c0 c' s false exb sent ev /\ r = 0%Z) \/ (res = true /\ mid c0 c' s false exb sent ev /\ (r < 0)%Z) \/ (res = true /\ mid c0 c' s false exb sent (ev ++ [Responded]) /\ r = 0%Z).
Proof.
  intros M E. assert (M' := M). destruct M' as (M1 & M2 & M3 & M4 & M5 & M6 & M7 & M8 & M9 & M10).
  unfold send_resbuf in E. rewrite M4 in E. destruct res; cbn [negb] in E.
  - destruct (an_res a <? 0)%Z eqn:R; injection E as <- <-; right; [left|right]; (split; [reflexivity|]); unfold mid; fields; rewrite M10, ?app_assoc; (split; [auto 12|lia || reflexivity]).
  - injection E as <- <-. left. auto.
Qed.
Lemma tail_respond g c0 c a r res exb sent ev L : mid c0 c C_RESBUF_L_SEND res exb sent ev ->
  incl (if res then Res C_ERR (c_timer c0) false sent (ev ++ [Failed]) true :: endings g c0 false sent (ev ++ [Responded]) else endings g c0 false sent ev) L ->
  ends_in c0 (handler_tail g c a r) L.
Proof.
  intros M HL. unfold handler_tail. replace (c_state c) with C_RESBUF_L_SEND by (symmetry; apply M). unfold andthen. cbn [obind].
  destruct (send_resbuf c a) as (c', r') eqn:E. destruct (send_resbuf_mid _ _ _ _ _ _ _ _ _ _ M E) as [(-> & M' & ->)|[(-> & M' & R)|(-> & M' & ->)]].
  - cbn [Z.ltb Z.compare]. apply (end_stage_ends g c0 c' _ a _ _ _ _ _ M'); [reflexivity|exact HL].
  - rewrite (proj2 (Z.ltb_lt _ _) R). apply (ends_fail c0 c' r' _ _ _ _ _ _ M'); [discriminate|exact R|apply HL; left; reflexivity].
  - cbn [Z.ltb Z.compare]. apply (end_stage_ends g c0 c' _ a _ _ _ _ _ M'); [reflexivity|]. intros x X. apply HL. right. exact X.
Qed.
Lemma send_expbuf_mid g c0 c s a res exb sent ev c' r : mid c0 c s res exb sent ev -> send_expbuf g c a = (c', r) ->
  (exb = None /\ c' = c /\ r = 0%Z)
  \/ (exists n, exb = Some n /\ ((to_main g = true /\ n <> 0 /\ mid c0 c' s res None (sent ++ [M_Sync]) (ev ++ [Exported]) /\ r = 0%Z)
      \/ (mid c0 c' s res None sent ev /\ ((r < 0)%Z \/ (to_main g = false /\ r = 0%Z))))).
Proof.
  intros M E. assert (M' := M). destruct M' as (M1 & M2 & M3 & M4 & M5 & M6 & M7 & M8 & M9 & M10).
  unfold send_expbuf in E. rewrite M5 in E. destruct exb as [n|]; [right; exists n; split; [reflexivity|]|injection E as <- <-; auto].
  assert (N : mid c0 (with_bufs c (c_resbuf c) None) s res None sent ev) by (unfold mid; fields; auto 12).
  destruct (to_main g).
  - destruct (n =? 0) eqn:Z; [injection E as <- <-; right; split; [exact N|left; reflexivity]|].
    destruct (an_exp a <? 0)%Z eqn:X; injection E as <- <-; [right; split; [exact N|clear - X; lia]|]. left. split; [reflexivity|]. split; [clear - Z; lia|]. split; [|reflexivity].
    unfold mid. fields. rewrite M9, M10, !app_assoc. auto 12.
  - destruct (an_exp a <? 0)%Z eqn:X; injection E as <- <-; right; (split; [exact N|clear - X; auto; lia]).
Qed.
Lemma send_main g c0 c a r res exb ev L : to_main g = true -> mid c0 c C_EXPBUF_F_SEND res exb [] ev ->
  In (Res C_ERR (c_timer c0) res [] (ev ++ [Failed]) true) L ->
  match exb with
  | None => In (Res C_EXPBUF_WAIT_ACK (c_timer c0) res [] ev false) L
  | Some _ => In (Res C_EXPBUF_WAIT_ACK (c_timer c0) res [M_Sync] (ev ++ [Exported]) false) L
     /\ incl (if res then Res C_ERR (c_timer c0) false [] (ev ++ [Failed]) true :: endings g c0 false [] (ev ++ [Responded]) else endings g c0 false [] ev) L
  end -> ends_in c0 (handler_send g c a r) L.
Proof.
  intros Tm M L1 L2. unfold handler_send. replace (c_state c) with C_EXPBUF_F_SEND by (symmetry; apply M).
  destruct (send_expbuf g c a) as (c', r') eqn:E.
  assert (Wait : forall x y, mid c0 c' C_EXPBUF_F_SEND res x y (if y then ev else ev ++ [Exported]) -> r' = 0%Z -> In (Res C_EXPBUF_WAIT_ACK (c_timer c0) res y (if y then ev else ev ++ [Exported]) false) L ->
     ends_in c0 (if (r' <? 0)%Z && negb (r' =? - ENODATA)%Z then Ok (c', r') else
        let! (c, r) := change_state g c' (if (r' =? - ENODATA)%Z then C_RESBUF_L_SEND else C_EXPBUF_WAIT_ACK) 0 in if (r <? 0)%Z then Ok (c, r) else handler_tail g c a r) L).
  { intros x y M' -> I. change ((0 <? 0)%Z && negb (0 =? - ENODATA)%Z) with false. change (0 =? - ENODATA)%Z with false. cbv iota.
    rewrite change_plain; [|replace (c_state c') with C_EXPBUF_F_SEND by (symmetry; apply M'); reflexivity|reflexivity]. cbn [obind Z.ltb Z.compare].
    unfold handler_tail. cbn [set_state c_state]. eexists _, _. split; [reflexivity|]. split; [discriminate|]. eexists. split; [exact I|].
    unfold conclude. cbn [Z.ltb Z.compare]. destruct M' as (M1 & M2 & M3 & M4 & M5 & M6 & M7 & M8 & M9 & M10). unfold gives, finish. fields. auto 12. }
  destruct (send_expbuf_mid g c0 c _ a _ _ _ _ c' r' M E) as [(-> & -> & ->)|(n & -> & [(_ & Nz & M' & ->)|(M' & R)])].
  - apply (Wait None []); [exact M|reflexivity|exact L2].
  - apply (Wait None [M_Sync]); [exact M'|reflexivity|exact (proj1 L2)].
  - assert (R' : (r' < 0)%Z) by (destruct R as [R|(X & _)]; [exact R|congruence]). rewrite (proj2 (Z.ltb_lt _ _) R').
    destruct (r' =? - ENODATA)%Z eqn:X; cbn [negb andb].
    + rewrite change_plain; [|replace (c_state c') with C_EXPBUF_F_SEND by (symmetry; apply M'); reflexivity|reflexivity]. cbn [obind Z.ltb Z.compare].
      apply (tail_respond g c0 _ a 0 res None [] ev); [apply (mid_state _ _ _ _ _ _ _ _ M'); discriminate|exact (proj2 L2)].
    + apply (ends_fail c0 c' r' _ _ _ _ _ _ M'); [discriminate|exact R'|exact L1].
Qed.
Lemma send_client g c0 c a r res exb ev L : to_main g = false -> mid c0 c C_RESBUF_F_SEND res exb [] ev ->
  In (Res C_ERR (c_timer c0) false [] (ev ++ (if res then [Responded] else []) ++ [Failed]) true) L ->
  incl (if res then Res C_ERR (c_timer c0) false [] (ev ++ [Failed]) true :: endings g c0 false [] (ev ++ [Responded]) else endings g c0 false [] ev) L ->
  ends_in c0 (handler_send g c a r) L.
Proof.
  intros Tm M L1 L2. unfold handler_send. replace (c_state c) with C_RESBUF_F_SEND by (symmetry; apply M). unfold andthen. cbn [obind].
  destruct (send_resbuf c a) as (c1, r1) eqn:E1.
  assert (Next : forall ev1, mid c0 c1 C_RESBUF_F_SEND false exb [] ev1 -> r1 = 0%Z -> In (Res C_ERR (c_timer c0) false [] (ev1 ++ [Failed]) true) L ->
     incl (endings g c0 false [] ev1) L -> ends_in c0 (let! (c, r0) := change_state g c1 C_EXPBUF_L_SEND 0 in if (r0 <? 0)%Z then Ok (c, r0) else handler_tail g c a 0) L).
  { intros ev1 M1 _ L3 L4. rewrite change_plain; [|replace (c_state c1) with C_RESBUF_F_SEND by (symmetry; apply M1); reflexivity|reflexivity].
    cbn [obind Z.ltb Z.compare]. unfold handler_tail. cbn [set_state c_state].
    set (c2 := set_state c1 C_EXPBUF_L_SEND (c_stage c1) (c_timer c1) (c_armed c1)).
    assert (M2 : mid c0 c2 C_EXPBUF_L_SEND false exb [] ev1) by (apply (mid_state _ _ _ _ _ _ _ _ M1); discriminate).
    change (c_state c2) with C_EXPBUF_L_SEND. cbv iota. fold c2.
    destruct (send_expbuf g c2 a) as (c3, r3) eqn:E3.
    destruct (send_expbuf_mid g c0 c2 _ a _ _ _ _ c3 r3 M2 E3) as [(-> & -> & ->)|(n & -> & [(X & _)|(M3 & R)])].
    - cbn [Z.ltb Z.compare andb]. apply (end_stage_ends g c0 c2 _ a _ _ _ _ _ M2); [reflexivity|exact L4].
    - congruence.
    - destruct ((r3 <? 0)%Z && negb (r3 =? - ENODATA)%Z) eqn:X.
      + apply (ends_fail c0 c3 r3 _ _ _ _ _ _ M3); [discriminate|lia|exact L3].
      + apply (end_stage_ends g c0 c3 _ a _ _ _ _ _ M3); [reflexivity|exact L4]. }
  destruct (send_resbuf_mid _ _ _ _ _ _ _ _ _ _ M E1) as [(-> & M' & ->)|[(-> & M' & R)|(-> & M' & ->)]].
  - cbn [Z.ltb Z.compare]. apply (Next _ M' eq_refl); [exact L1|exact L2].
  - rewrite (proj2 (Z.ltb_lt _ _) R). apply (ends_fail c0 c1 r1 _ _ _ _ _ _ M'); [discriminate|exact R|apply L2; left; reflexivity].
  - cbn [Z.ltb Z.compare]. apply (Next _ M' eq_refl); [rewrite <- app_assoc; exact L1|]. intros x X. apply L2. right. exact X.
Qed.
Lemma handler_results g c a : c_ended c = false -> c_state c <> C_ERR -> exists c', handler g c a = Ok c' /\ exists r, In r (results g c) /\ gives c c' r.
Proof.
  intros E Ne.
  assert (H : ends_in c (handler_body g (disarm c) a) (results g c)).
  2:{ destruct H as (c1 & r & Eq & N1 & q & I & G). unfold handler. rewrite Eq. cbn [obind]. unfold conclude in G. destruct (r <? 0)%Z; [|eauto].
      rewrite change_plain; [cbn [obind]; eauto| |reflexivity]. destruct (c_state c1); (reflexivity || congruence). }
  assert (M0 : mid c (disarm c) (c_state c) (c_resbuf c) (c_expbuf c) [] []) by (unfold mid; fields; rewrite !app_nil_r; auto 12).
  unfold handler_body, results. cbn [disarm c_state c_prev]. destruct (state_eqb (c_state c) C_EXE_SCHED) eqn:Es; cbn [negb].
  2:{ destruct (state_eqb (c_state c) C_TIM_OUT); apply (ends_fail _ _ _ _ _ _ _ _ _ M0); (exact Ne || reflexivity || (left; reflexivity)). }
  assert (Sc : c_state c = C_EXE_SCHED) by (destruct (c_state c); (reflexivity || discriminate Es)). rewrite Sc in *. cbn [state_eqb].
  destruct (in_set (c_prev c) [C_INI; C_EXE_WAIT; C_STG_WAIT]).
  - unfold andthen at 1. rewrite change_plain; [|cbn [disarm c_state]; rewrite Sc; reflexivity|reflexivity]. cbn [obind Z.ltb Z.compare].
    set (c1 := set_state (disarm c) C_EXE_RUN _ _ _).
    assert (M1 : mid c c1 C_EXE_RUN (c_resbuf c) (c_expbuf c) [] []) by (apply (mid_state _ _ _ _ _ _ _ _ M0); discriminate).
    assert (M2 : mid c (emit c1 (Ran (c_stage c1))) C_EXE_RUN (c_resbuf c) (c_expbuf c) [] [Ran (c_stage c)]).
    { destruct M1 as (X1 & X2 & X3 & X4 & X5 & X6 & X7 & X8 & X9 & X10). unfold mid. fields. rewrite X2, X10, (app_nil_r (c_trace c)). auto 12. }
    unfold exec. replace (c_mem (emit c1 (Ran (c_stage c1)))) with (c_mem c) by (symmetry; apply M2).
    set (c2 := emit c1 (Ran (c_stage c1))) in *. clearbody c2. clear c1 M1 M0.
    destruct (asks_main g && negb (c_mem c)).
    + destruct (an_exec a <? 0)%Z; cbn [obind Z.ltb Z.compare].
      * apply (ends_fail _ _ _ _ _ _ _ _ _ M2); [discriminate|lia|left; reflexivity].
      * rewrite change_plain; [|cbn [send c_state]; replace (c_state c2) with C_EXE_RUN by (symmetry; apply M2); reflexivity|reflexivity]. cbn [obind Z.ltb Z.compare set_state c_state state_eqb].
        unfold handler_build, handler_send, handler_tail. cbn [c_state]. eexists _, _. split; [reflexivity|]. split; [discriminate|]. eexists. split; [right; left; reflexivity|].
        unfold conclude. cbn [Z.ltb Z.compare]. destruct M2 as (X1 & X2 & X3 & X4 & X5 & X6 & X7 & X8 & X9 & X10). unfold gives, finish. fields. rewrite X9, app_nil_r. auto 12.
    + cbn [obind]. destruct (an_exec a <? 0)%Z eqn:Xr.
      * apply (ends_fail _ _ _ _ _ _ _ _ _ M2); [discriminate|lia|left; reflexivity].
      * replace (c_state c2) with C_EXE_RUN by (symmetry; apply M2). cbn [state_eqb]. unfold andthen at 1.
        rewrite change_plain; [|replace (c_state c2) with C_EXE_RUN by (symmetry; apply M2); reflexivity|reflexivity]. cbn [obind Z.ltb Z.compare].
        set (c3 := set_state c2 C_RES_BUILD _ _ _).
        assert (M3 : mid c c3 C_RES_BUILD (c_resbuf c) (c_expbuf c) [] [Ran (c_stage c)]) by (apply (mid_state _ _ _ _ _ _ _ _ M2); discriminate).
        clearbody c3. clear c2 M2 Xr.
        unfold handler_build. replace (c_state c3) with C_RES_BUILD by (symmetry; apply M3). unfold andthen at 1. cbn [obind].
        assert (Rest : forall exb c4, mid c c4 C_RES_BUILD (c_resbuf c) exb [] [Ran (c_stage c)] -> exb = (if exports g then Some (an_count a) else c_expbuf c) ->
           ends_in c (andthen (change_state g c4 (if to_main g then C_EXPBUF_F_SEND else C_RESBUF_F_SEND) 0) (fun c => handler_send g c a 0))
             (Res C_ERR (c_timer c) (c_resbuf c) [] ([Ran (c_stage c)] ++ [Failed]) true :: (if to_main g then
        if exports g then Res C_EXPBUF_WAIT_ACK (c_timer c) (c_resbuf c) [M_Sync] ([Ran (c_stage c)] ++ [Exported]) false :: respond g c [Ran (c_stage c)]
        else match c_expbuf c with
             | None => [Res C_EXPBUF_WAIT_ACK (c_timer c) (c_resbuf c) [] [Ran (c_stage c)] false]
             | Some _ => Res C_EXPBUF_WAIT_ACK (c_timer c) (c_resbuf c) [M_Sync] ([Ran (c_stage c)] ++ [Exported]) false :: respond g c [Ran (c_stage c)] end
      else (if c_resbuf c then [Res C_ERR (c_timer c) false [] ([Ran (c_stage c)] ++ [Responded; Failed]) true] else [Res C_ERR (c_timer c) false [] ([Ran (c_stage c)] ++ [Failed]) true]) ++ respond g c [Ran (c_stage c)]))).
        { intros exb c4 M4 Eb. unfold andthen.
          rewrite change_plain; [|replace (c_state c4) with C_RES_BUILD by (symmetry; apply M4); destruct (to_main g); reflexivity|destruct (to_main g); reflexivity].
          cbn [obind Z.ltb Z.compare]. set (c5 := set_state c4 _ _ _ _).
          assert (M5 : mid c c5 (if to_main g then C_EXPBUF_F_SEND else C_RESBUF_F_SEND) (c_resbuf c) exb [] [Ran (c_stage c)]) by (apply (mid_state _ _ _ _ _ _ _ _ M4); destruct (to_main g); discriminate).
          clearbody c5. destruct (to_main g) eqn:Tm.
          - apply (send_main g c c5 a 0 _ _ _ _ Tm M5); [left; reflexivity|]. rewrite Eb.
            assert (Full : In (Res C_EXPBUF_WAIT_ACK (c_timer c) (c_resbuf c) [M_Sync] ([Ran (c_stage c)] ++ [Exported]) false)
               (Res C_ERR (c_timer c) (c_resbuf c) [] ([Ran (c_stage c)] ++ [Failed]) true :: Res C_EXPBUF_WAIT_ACK (c_timer c) (c_resbuf c) [M_Sync] ([Ran (c_stage c)] ++ [Exported]) false :: respond g c [Ran (c_stage c)])
               /\ incl (if c_resbuf c then Res C_ERR (c_timer c) false [] ([Ran (c_stage c)] ++ [Failed]) true :: endings g c false [] ([Ran (c_stage c)] ++ [Responded]) else endings g c false [] [Ran (c_stage c)])
               (Res C_ERR (c_timer c) (c_resbuf c) [] ([Ran (c_stage c)] ++ [Failed]) true :: Res C_EXPBUF_WAIT_ACK (c_timer c) (c_resbuf c) [M_Sync] ([Ran (c_stage c)] ++ [Exported]) false :: respond g c [Ran (c_stage c)])).
            { split; [right; left; reflexivity|]. intros x X. right. right. exact X. }
            destruct (exports g); [exact Full|]. destruct (c_expbuf c); [exact Full|]. right. left. reflexivity.
          - apply (send_client g c c5 a 0 _ _ _ _ Tm M5).
            + right. apply in_or_app. left. destruct (c_resbuf c); left; reflexivity.
            + intros x X. right. apply in_or_app. right. exact X. }
        unfold build_buffers. destruct (exports g) eqn:Ex; cbn [negb].
        -- destruct (an_build a <? 0)%Z eqn:Xb.
           ++ rewrite Xb. apply (ends_fail _ _ _ _ _ _ _ _ _ M3); [discriminate|lia|left; reflexivity].
           ++ cbn [Z.ltb Z.compare]. apply (Rest (Some (an_count a))); [|reflexivity].
              destruct M3 as (X1 & X2 & X3 & X4 & X5 & X6 & X7 & X8 & X9 & X10). unfold mid. fields. auto 12.
        -- cbn [Z.ltb Z.compare]. apply (Rest (c_expbuf c)); [exact M3|reflexivity].
  - destruct (state_eqb (c_prev c) C_EXPBUF_WAIT_ACK).
    + unfold andthen. rewrite change_plain; [|cbn [disarm c_state]; rewrite Sc; reflexivity|reflexivity]. cbn [obind Z.ltb Z.compare].
      unfold handler_build, handler_send. cbn [set_state c_state]. apply (tail_respond g c _ a 0 (c_resbuf c) (c_expbuf c) [] []).
      * apply (mid_state _ _ _ _ _ _ _ _ M0); discriminate.
      * intros x X. exact X.
    + unfold handler_build, handler_send, handler_tail. cbn [disarm c_state]. rewrite Sc.
      apply (ends_fail _ _ _ _ _ _ _ _ _ M0); [discriminate|lia|left; reflexivity].
Qed.

(* The trace grows at its end *)
Definition each_event (good : list event -> event -> Prop) (t : list event) : Prop := forall a e b, t = a ++ e :: b -> good a e.
Lemma each_nil good : each_event good [].
Proof. intros [|x a] e b H; discriminate H. Qed.
Lemma each_snoc good t e : each_event good t -> good t e -> each_event good (t ++ [e]).
Proof.
  intros H G a x b E. destruct (@exists_last _ (x :: b)) as (b' & y & Eb); [discriminate|]. rewrite Eb, app_assoc in E. apply app_inj_tail in E as (E & <-).
  destruct b' as [|z b'].
  - injection Eb as -> ->. rewrite app_nil_r in E. subst. exact G.
  - injection Eb as <- Eb. subst. apply (H a x b'). reflexivity.
Qed.
Lemma number_snoc p t e : number_of p (t ++ [e]) = number_of p t + if p e then 1 else 0.
Proof. unfold number_of. rewrite filter_app, app_length. cbn [filter]. destruct (p e); reflexivity. Qed.
Lemma number_in p t e : In e t -> p e = true -> number_of p t <> 0.
Proof.
  intros I P. unfold number_of. assert (X : In e (filter p t)) by (apply filter_In; auto). destruct (filter p t); [destruct X|discriminate].
Qed.
Lemma number_ex p t : number_of p t <> 0 -> exists e, In e t /\ p e = true.
Proof.
  unfold number_of. intros H. destruct (filter p t) as [|e l] eqn:E; [destruct (H eq_refl)|]. exists e. apply filter_In. rewrite E. left. reflexivity.
Qed.
Lemma stages_snoc t e : stages_run (t ++ [e]) = stages_run t ++ match e with Ran n => [n] | _ => [] end.
Proof. unfold stages_run. rewrite flat_map_app. cbn. rewrite app_nil_r. reflexivity. Qed.

(* What holds of every command *)
Definition good_event (a : list event) (e : event) : Prop :=
  (e = Finished \/ (exists n, e = Ran n /\ 2 <= n) -> In Responded a) /\ (is_merged e = false -> ~ In Failed a).
Definition rested (c : cmd) : bool := in_set (c_state c) [C_EXE_SCHED; C_STG_WAIT; C_EXE_WAIT; C_EXPBUF_WAIT_ACK; C_TIM_OUT; C_FIN].
Definition counted (t : list event) (state prev : cmd_state) (resbuf ended : bool) : Prop :=
  number_of is_failed t = (if ended then 1 else 0)
  /\ number_of is_responded t + (if resbuf then 1 else 0) <= 1
  /\ (ended = false -> number_of is_responded t + (if resbuf then 1 else 0) = 1)
  /\ (if ended then number_of is_finished t <= 1
      else number_of is_finished t = match state with C_FIN => 1 | C_EXE_SCHED => match prev with C_FIN => 1 | _ => 0 end | _ => 0 end).
Definition inv (g : reg) (c : cmd) : Prop :=
  (if c_ended c then c_state c = C_ERR else rested c = true)
  /\ (c_armed c = true -> c_ended c = false -> c_state c = C_EXE_SCHED \/ c_state c = C_TIM_OUT)
  /\ (c_timer c = true -> c_state c = C_STG_WAIT)
  /\ (1 <= c_stage c <= Nat.max 1 (stage_count g))
  /\ (c_state c = C_STG_WAIT -> is_last_stage g c = false)
  /\ (c_ended c = false -> in_set (c_state c) [C_STG_WAIT; C_TIM_OUT; C_FIN] = true \/ 2 <= c_stage c -> c_resbuf c = false)
  /\ counted (c_trace c) (c_state c) (c_prev c) (c_resbuf c) (c_ended c)
  /\ each_event good_event (c_trace c)
  /\ (asks_main g = false -> c_state c <> C_EXE_WAIT
      /\ stages_run (c_trace c) = seq 1 (if state_eqb (c_state c) C_EXE_SCHED && in_set (c_prev c) [C_INI; C_STG_WAIT] then c_stage c - 1 else c_stage c)
      /\ (c_state c = C_EXE_SCHED -> c_prev c <> C_EXE_WAIT)).
Lemma init_inv g c : init_cmd g = Ok c -> inv g c /\ c_state c = C_EXE_SCHED /\ c_prev c = C_INI /\ c_sent c = [] /\ c_trace c = [] /\ c_resbuf c = true /\ c_stage c = 1 /\ c_ended c = false.
Proof.
  unfold init_cmd, change_state. cbn [c_state state_eqb in_set existsb c_stage orb].
  destruct (negb (stage_count g =? 0) && (stage_count g <? 1)) eqn:E; cbn [obind]; intros H; [discriminate H|]. injection H as <-.
  split; [|fields; auto 8]. unfold inv, counted, rested. fields. cbn.
  repeat split; try discriminate; try lia; auto using each_nil; try (intros; congruence).
  all: first [destruct a; discriminate H|destruct (stage_count g); cbn; lia].
Qed.

Lemma good_intro t e : (is_merged e = false -> number_of is_failed t = 0) -> (e = Finished \/ (exists n, e = Ran n /\ 2 <= n) -> number_of is_responded t <> 0) -> good_event t e.
Proof.
  intros H1 H2. split.
  - intros H. destruct (number_ex _ _ (H2 H)) as ([] & I & X); try discriminate X. exact I.
  - intros M I. apply (number_in is_failed _ _ I eq_refl), (H1 M).
Qed.
Lemma snoc_cons (t : list event) x y l : t ++ x :: y :: l = (t ++ [x]) ++ y :: l.
Proof. rewrite <- app_assoc. reflexivity. Qed.
Lemma seq_end n : 1 <= n -> seq 1 (n - 1) ++ [n] = seq 1 n.
Proof. intros H. replace n with (S (n - 1)) at 3 by lia. rewrite seq_S. do 2 f_equal. lia. Qed.
Ltac case_of I E St Rs nums :=
  injection I as <- <- <- <- <- <-; cbn [app]; rewrite ?app_nil_r, ?snoc_cons, ?number_snoc, ?stages_snoc; cbn [is_failed is_responded is_finished is_merged state_eqb andb];
  split; [reflexivity|]; split; [let X := fresh in intros X; discriminate X|]; split; [let X := fresh in intros X; first [discriminate X|reflexivity]|]; split; [assumption|];
  split; [let X := fresh in intros X; first [discriminate X|reflexivity|assumption]|];
  split; [let X := fresh in let Y := fresh in intros X Y; first [discriminate X|reflexivity|assumption|destruct Y as [Y|Y]; [discriminate Y|exact (Rs Y)]]|];
  split; [split; [nums|split; [nums|split; [let X := fresh in intros X; first [discriminate X|nums]|nums]]]|];
  split; [repeat (apply each_snoc; [|apply good_intro; rewrite ?number_snoc; cbn [is_failed is_responded is_finished is_merged];
     [intros _; nums|let X := fresh in let n := fresh in let Y := fresh in intros [X|(n & X & Y)]; first [discriminate X|injection X as <-; revert Y; nums|nums]]]); exact E|];
  let A := fresh in intros A; split; [first [discriminate|congruence]|]; split;
    [try rewrite (St A); rewrite ?app_nil_r; first [reflexivity|apply seq_end; assumption]|let X := fresh in intros X; discriminate X].
Lemma finish_inv g c c' s timer res sent ev ended :
  inv g c -> c_armed c = true -> c_ended c = false -> finish c s (c_stage c) timer res sent ev ended c' -> In (Res s timer res sent ev ended) (results g c) -> inv g c'.
Proof.
  intros (I1 & I2 & I3 & I4 & I5 & I6 & I7 & I8 & I9) Ar En (F1 & F2 & F3 & F4 & F5 & F6 & F7 & F8 & F9) I.
  rewrite En in I1, I7. destruct I7 as (K1 & K2 & K3 & K4). specialize (K3 eq_refl). specialize (I6 En). specialize (I2 Ar En).
  assert (Ti : c_timer c = false) by (destruct (c_timer c); [specialize (I3 eq_refl); destruct I2; congruence|reflexivity]).
  unfold inv, counted, rested, is_last_stage. rewrite F1, F2, F3, F4, F6, F7, F9. clear F1 F2 F3 F4 F5 F6 F7 F8 F9.
  unfold results, respond, endings in I. rewrite Ti in I. destruct I2 as [I2|I2]; rewrite I2 in *; cbn [state_eqb negb andb] in *.
  - destruct (in_set (c_prev c) [C_INI; C_EXE_WAIT; C_STG_WAIT]) eqn:Pr.
    + assert (Rs : 2 <= c_stage c -> c_resbuf c = false) by (intros; apply I6; right; assumption).
      assert (Pf : match c_prev c with C_FIN => 1 | _ => 0 end = 0) by (destruct (c_prev c); (reflexivity || discriminate Pr)). rewrite Pf in K4. clear Pf.
      assert (St : asks_main g = false -> stages_run (c_trace c) = seq 1 (c_stage c - 1)).
      { intros A. destruct (I9 A) as (_ & X & Y). rewrite X. destruct (c_prev c); try discriminate Pr; try reflexivity. destruct (Y eq_refl eq_refl). }
      assert (Rn : 2 <= c_stage c -> number_of is_responded (c_trace c) <> 0) by (intros X; rewrite (Rs X) in K3; clear - K3; lia).
      assert (Len : 1 <= c_stage c) by apply I4.
      destruct (asks_main g && negb (c_mem c)) eqn:Am.
      { destruct (asks_main g); [|discriminate Am]. destruct (c_resbuf c); destruct I as [I|[I|[]]]; case_of I I8 St Rs ltac:(clear - K1 K2 K3 K4 Rn; lia). }
      unfold is_last_stage in *. destruct (to_main g); [destruct (exports g); [|destruct (c_expbuf c)]|]; destruct (c_resbuf c) eqn:Rb;
        destruct ((stage_count g =? 0) || (stage_count g =? c_stage c)) eqn:La; cbn [In app] in I;
        repeat (destruct I as [I|I]; [case_of I I8 St Rs ltac:(clear - K1 K2 K3 K4 Rn; lia)|]); destruct I.
    + assert (St : asks_main g = false -> stages_run (c_trace c) = seq 1 (c_stage c)).
      { intros A. destruct (I9 A) as (_ & X & Y). rewrite X. destruct (c_prev c); try discriminate Pr; reflexivity. }
      assert (Rs : 2 <= c_stage c -> c_resbuf c = false) by (intros; apply I6; right; assumption).
      assert (K5 : number_of is_finished (c_trace c) <= 1) by (rewrite K4; clear; destruct (c_prev c); lia).
      destruct (state_eqb (c_prev c) C_EXPBUF_WAIT_ACK) eqn:Pa.
      * assert (K6 : number_of is_finished (c_trace c) = 0) by (rewrite K4; destruct (c_prev c); (reflexivity || discriminate Pa)).
        unfold is_last_stage in *. destruct (c_resbuf c) eqn:Rb;
        destruct ((stage_count g =? 0) || (stage_count g =? c_stage c)) eqn:La; cbn [In app] in I;
        repeat (destruct I as [I|I]; [case_of I I8 St Rs ltac:(clear - K1 K2 K3 K6; lia)|]); destruct I.
      * destruct (c_resbuf c); destruct I as [I|[]]; case_of I I8 St Rs ltac:(clear - K1 K2 K3 K5; lia).
  - assert (St : asks_main g = false -> stages_run (c_trace c) = seq 1 (c_stage c)) by (intros A; apply (I9 A)).
    assert (Rs : 2 <= c_stage c -> c_resbuf c = false) by (intros; apply I6; right; assumption).
    destruct (c_resbuf c); destruct I as [I|[]]; case_of I I8 St Rs ltac:(clear - K1 K2 K3 K4; lia).
Qed.
Lemma armed_not_ended g c : inv g c -> c_ended c = false -> c_state c <> C_ERR.
Proof. intros (I1 & _) E X. rewrite E in I1. unfold rested in I1. rewrite X in I1. discriminate I1. Qed.
Lemma handler_inv g c a : inv g c -> c_armed c = true -> c_ended c = false -> exists c', handler g c a = Ok c' /\ inv g c' /\ exists r, In r (results g c) /\ gives c c' r.
Proof.
  intros I A E. destruct (handler_results g c a E (armed_not_ended g c I E)) as (c' & H & [s t r se ev en] & Ir & G). exists c'. split; [exact H|]. split; [|eauto].
  exact (finish_inv g c c' s t r se ev en I A E G Ir).
Qed.
(* Messages and the timer *)
Lemma sched_inv g c : inv g c -> c_ended c = false -> exists c' r, change_state g c C_EXE_SCHED 0 = Ok (c', r) /\ inv g c' /\
  (c_state c = C_EXE_SCHED /\ c' = c \/ c_state c <> C_EXE_SCHED /\ c_state c' = C_EXE_SCHED /\ c_prev c' = c_state c /\ c_resbuf c' = c_resbuf c /\ c_sent c' = c_sent c /\ c_trace c' = c_trace c /\ c_ended c' = c_ended c).
Proof.
  intros I0 En. assert (I := I0). destruct I as (I1 & I2 & I3 & I4 & I5 & I6 & I7 & I8 & I9). unfold change_state. destruct (state_eqb (c_state c) C_EXE_SCHED) eqn:S0.
  { exists c, (-1)%Z. split; [reflexivity|]. split; [exact I0|]. left. split; [destruct (c_state c); (reflexivity || discriminate S0)|reflexivity]. }
  rewrite En in I1. specialize (I6 En). destruct I7 as (K1 & K2 & K3 & K4). rewrite En in K1, K4. specialize (K3 En).
  assert (Ni : state_eqb (c_state c) C_INI = false) by (unfold rested in I1; destruct (c_state c); (reflexivity || discriminate I1)).
  assert (In1 : in_set (c_state c) [C_INI; C_STG_WAIT] = state_eqb (c_state c) C_STG_WAIT) by (unfold in_set; cbn [existsb]; rewrite Ni, orb_false_r; reflexivity).
  rewrite Ni, In1.
  assert (St : in_set (c_state c) [C_STG_WAIT; C_TIM_OUT; C_FIN] = true \/ 2 <= c_stage c -> c_resbuf c = false) by exact I6.
  destruct (state_eqb (c_state c) C_STG_WAIT) eqn:Sw.
  - assert (Sw' : c_state c = C_STG_WAIT) by (destruct (c_state c); (reflexivity || discriminate Sw)).
    specialize (I5 Sw'). unfold is_last_stage in I5. rewrite orb_false_iff in I5. destruct I5 as (Z0 & L). rewrite Z0. cbn [negb andb].
    assert (Lt : c_stage c < stage_count g) by (clear - I4 Z0 L; lia). replace (stage_count g <? S (c_stage c)) with false by (clear - Lt; lia).
    eexists _, _. split; [reflexivity|]. split; [|right; rewrite Sw' in *; split; [discriminate|fields; auto 12]].
    rewrite Sw' in *. unfold inv, counted, rested. fields. rewrite En, K1, Sw'. cbn [in_set existsb state_eqb orb andb].
    split; [reflexivity|]. split; [auto|]. split; [intros X; discriminate X|]. split; [clear - I4 Lt; lia|]. split; [intros X; discriminate X|]. split; [intros _ _; apply St; left; reflexivity|].
    split; [auto|]. split; [exact I8|]. intros A. split; [discriminate|]. destruct (I9 A) as (_ & X & _). split; [|intros _; discriminate]. rewrite X. cbn [state_eqb andb]. do 2 f_equal. clear; lia.
  - eexists _, _. split; [reflexivity|]. split; [|right; split; [intros X; rewrite X in S0; discriminate S0|fields; auto 12]].
    unfold inv, counted, rested. fields. rewrite En, K1. cbn [in_set existsb state_eqb orb andb].
    split; [reflexivity|]. split; [auto|]. split; [intros X; discriminate X|]. split; [exact I4|]. split; [intros X; discriminate X|].
    split; [intros _ [X|X]; [discriminate X|apply St; right; exact X]|]. split; [|split; [exact I8|]].
    + split; [reflexivity|]. split; [exact K2|]. split; [auto|]. rewrite K4. unfold rested in I1. destruct (c_state c); (reflexivity || discriminate I1 || discriminate S0).
    + intros A. split; [discriminate|]. destruct (I9 A) as (W & X & _). cbn [andb] in X. split; [|intros _; exact W]. rewrite X. rewrite Ni, Sw. reflexivity.
Qed.
Lemma timer_inv g c : inv g c -> c_ended c = false -> c_timer c = true -> exists c' r, change_state g c C_TIM_OUT 0 = Ok (c', r) /\ inv g c' /\
  c_state c = C_STG_WAIT /\ c_state c' = C_TIM_OUT /\ c_resbuf c' = c_resbuf c /\ c_sent c' = c_sent c /\ c_trace c' = c_trace c /\ c_ended c' = c_ended c.
Proof.
  intros (I1 & I2 & I3 & I4 & I5 & I6 & I7 & I8 & I9) En Ti. specialize (I3 Ti). unfold change_state. rewrite I3. cbn [state_eqb negb].
  eexists _, _. split; [reflexivity|]. split; [|fields; auto 12]. destruct I7 as (K1 & K2 & K3 & K4). rewrite En in *. specialize (I6 eq_refl). specialize (K3 eq_refl). rewrite I3 in *.
  unfold inv, counted, rested. fields. rewrite En, K1. cbn [in_set existsb state_eqb orb andb].
  split; [reflexivity|]. split; [auto|]. split; [intros X; discriminate X|]. split; [exact I4|]. split; [intros X; discriminate X|]. split; [intros _ _; apply I6; left; reflexivity|].
  split; [auto|]. split; [exact I8|]. intros A. split; [discriminate|]. destruct (I9 A) as (_ & X & _). split; [exact X|intros X'; discriminate X'].
Qed.
Lemma with_mem_inv g c : inv g c -> inv g (with_mem c).
Proof. exact (fun H => H). Qed.
Lemma merged_inv g c l ok : inv g c -> inv g (emit (with_sent c l) (Merged ok)).
Proof.
  intros (I1 & I2 & I3 & I4 & I5 & I6 & I7 & I8 & I9). unfold inv, counted, rested. fields. cbn [with_sent c_state c_prev c_stage c_timer c_resbuf c_mem c_armed c_ended c_trace].
  rewrite !number_snoc, stages_snoc. cbn [is_failed is_responded is_finished]. rewrite app_nil_r, !Nat.add_0_r. do 7 (split; [assumption|]). split; [|exact I9].
  apply each_snoc; [exact I8|]. apply good_intro; [intros X; discriminate X|]. intros [X|(n & X & _)]; discriminate X.
Qed.
Lemma step_inv g s x : inv g (s_cmd s) -> exists s', sys_step g s x = Ok s' /\ inv g (s_cmd s').
Proof.
  intros I. destruct x as [a|ok| | |]; cbn [sys_step].
  - destruct (c_armed (s_cmd s)) eqn:Ar; cbn [andb]; [|eauto]. destruct (c_ended (s_cmd s)) eqn:En; cbn [negb]; [eauto|].
    destruct (handler_inv g _ a I Ar En) as (c' & -> & I' & _). cbn [obind]. eauto.
  - destruct (c_sent (s_cmd s)) as [|[] l]; [eauto|..]; eexists; (split; [reflexivity|]); cbn [s_cmd]; [apply merged_inv, I|exact I].
  - eauto.
  - destruct (s_in s) as [|m l]; [eauto|]. destruct (c_ended (s_cmd s)) eqn:En; [eauto|].
    set (c := match m with W_Resources => with_mem (s_cmd s) | _ => s_cmd s end).
    assert (Ic : inv g c) by (destruct m; exact I). assert (Ec : c_ended c = false) by (destruct m; exact En).
    destruct (match m with W_Umonitor => negb (to_main g) | _ => false end); [eauto|].
    destruct (sched_inv g c Ic Ec) as (c' & r & -> & I' & _). cbn [obind]. eauto.
  - destruct (c_timer (s_cmd s)) eqn:Ti; cbn [andb]; [|eauto]. destruct (c_ended (s_cmd s)) eqn:En; cbn [negb]; [eauto|].
    destruct (timer_inv g _ I En Ti) as (c' & r & -> & I' & _). cbn [obind]. eauto.
Qed.
Lemma steps_app g l s x : sys_steps g s (l ++ [x]) = let! s' := sys_steps g s l in sys_step g s' x.
Proof.
  revert s. induction l as [|y l IH]; intros s; cbn [app sys_steps obind].
  - destruct (sys_step g s x); reflexivity.
  - destruct (sys_step g s y); cbn [obind]; [apply IH|reflexivity].
Qed.
Lemma run_snoc g l x : run g (l ++ [x]) = let! s := run g l in sys_step g s x.
Proof. unfold run. destruct (init_cmd g) as [c|]; cbn [obind]; [apply steps_app|reflexivity]. Qed.
Lemma init_ok g : exists c, init_cmd g = Ok c.
Proof.
  unfold init_cmd, change_state. cbn [c_state state_eqb in_set existsb c_stage orb].
  replace (negb (stage_count g =? 0) && (stage_count g <? 1)) with false by lia. cbn [obind]. eauto.
Qed.
Lemma run_inv g l : exists s, run g l = Ok s /\ inv g (s_cmd s).
Proof.
  induction l as [|x l (s & E & I)] using rev_ind.
  - destruct (init_ok g) as (c & E). unfold run. rewrite E. cbn [obind sys_steps]. exists (Sys c []). split; [reflexivity|]. apply (init_inv g c E).
  - rewrite run_snoc, E. cbn [obind]. apply step_inv, I.
Qed.

(* The exchange with the main process: until the response is sent *)
Definition good_response (a : list event) (e : event) : Prop := e = Responded -> number_of is_exported a = number_of is_merged a.
Definition waiting (s : sys) : Prop :=
  let c := s_cmd s in
  (c_state c = C_EXE_SCHED \/ c_state c = C_EXPBUF_WAIT_ACK \/ c_state c = C_ERR)
  /\ number_of is_exported (c_trace c) = number_of is_merged (c_trace c) + length (c_sent c)
  /\ (c_state c = C_EXPBUF_WAIT_ACK -> (s_in s = [] /\ c_sent c = [M_Sync]) \/ (c_sent c = [] /\ (s_in s = [] \/ s_in s = [W_Sync])))
  /\ (c_state c <> C_EXPBUF_WAIT_ACK -> s_in s = [] /\ c_sent c = []).
Definition exchange (s : sys) : Prop := (number_of is_responded (trace s) = 0 -> waiting s) /\ each_event good_response (trace s).
Lemma good_other t e : e <> Responded -> good_response t e.
Proof. intros N X. destruct (N X). Qed.
Ltac grown E := rewrite ?app_nil_r, ?snoc_cons;
  repeat (apply each_snoc; [|first [apply good_other; discriminate|intros _; rewrite ?number_snoc; cbn [is_exported is_merged]; lia]]); exact E.
Lemma exchange_handler g s a s' : to_main g = true -> asks_main g = false -> inv g (s_cmd s) -> exchange s -> sys_step g s (A_handler a) = Ok s' -> exchange s'.
Proof.
  intros Tm Am I (W & Ee) H. cbn [sys_step] in H.
  destruct (c_armed (s_cmd s)) eqn:Ar; cbn [andb] in H; [|injection H as <-; split; assumption].
  destruct (c_ended (s_cmd s)) eqn:En; cbn [negb] in H; [injection H as <-; split; assumption|].
  destruct (handler_inv g _ a I Ar En) as (c' & E & I' & [st ti re se ev en] & Ir & (F1 & F2 & F3 & F4 & F5 & F6 & F7 & F8 & F9)). rewrite E in H. cbn [obind] in H. injection H as <-.
  unfold exchange, waiting, trace in *. cbn [s_cmd s_in]. rewrite F1, F8, F9. set (c := s_cmd s) in *. clearbody c.
  destruct I as (I1 & I2 & I3 & I4 & I5 & I6 & I7 & I8 & I9). destruct I7 as (_ & _ & K3 & _). specialize (K3 En). specialize (I2 Ar En). clear I1 I3 I4 I5 I6 I8 I9 E.
  unfold results, respond, endings in Ir. rewrite Tm, Am in Ir. cbn [andb] in Ir.
  destruct (Nat.eq_dec (number_of is_responded (c_trace c)) 0) as [Z|Z].
  - specialize (W Z). destruct W as (W1 & W2 & W3 & W4). rewrite Z in K3. assert (Rb : c_resbuf c = true) by (clear - K3; destruct (c_resbuf c); [reflexivity|lia]). clear K3.
    assert (Sc : c_state c = C_EXE_SCHED) by (destruct I2 as [X|X]; [exact X|rewrite X in W1; destruct W1 as [Y|[Y|Y]]; discriminate Y]).
    rewrite Sc in *. destruct (W4 ltac:(discriminate)) as (Wi & Ws). rewrite Ws in *. cbn [length] in W2. rewrite Nat.add_0_r in W2. rewrite Wi. clear W1 W3 W4 I2. rewrite Rb in Ir. cbn [state_eqb negb] in Ir.
    assert (Main : forall st ev se, (st = C_ERR /\ se = [] \/ st = C_EXPBUF_WAIT_ACK /\ (se = [] \/ se = [M_Sync])) ->
       number_of is_exported (c_trace c ++ ev) = number_of is_merged (c_trace c ++ ev) + length se ->
       (st = C_EXE_SCHED \/ st = C_EXPBUF_WAIT_ACK \/ st = C_ERR)
        /\ number_of is_exported (c_trace c ++ ev) = number_of is_merged (c_trace c ++ ev) + length ([] ++ se)
        /\ (st = C_EXPBUF_WAIT_ACK -> (@nil to_worker_msg = [] /\ [] ++ se = [M_Sync]) \/ ([] ++ se = [] /\ (@nil to_worker_msg = [] \/ [] = [W_Sync])))
        /\ (st <> C_EXPBUF_WAIT_ACK -> @nil to_worker_msg = [] /\ [] ++ se = [])).
    { clear. intros st ev se C N. cbn [app]. split; [tauto|]. split; [exact N|]. split.
      - intros ->. destruct C as [(X & _)|(_ & [->| ->])]; [discriminate X|right; auto|left; auto].
      - intros X. destruct C as [(_ & ->)|(Y & _)]; [auto|congruence]. }
    destruct (in_set (c_prev c) [C_INI; C_EXE_WAIT; C_STG_WAIT]); [|destruct (state_eqb (c_prev c) C_EXPBUF_WAIT_ACK)];
      [destruct (exports g); [|destruct (c_expbuf c)]| |]; destruct (is_last_stage g c); cbn [In app] in Ir;
      repeat (destruct Ir as [Ir|Ir]; [injection Ir as <- <- <- <- <- <-; split;
        [intros R; first [exfalso; clear - R; rewrite ?snoc_cons, ?number_snoc in R; cbn [is_responded] in R; lia|
         apply Main; [first [left; split; reflexivity|right; split; [reflexivity|first [left; reflexivity|right; reflexivity]]]|];
         clear - W2; rewrite ?snoc_cons, ?number_snoc; cbn [is_exported is_merged length]; lia]
        |clear - Ee W2; grown Ee]|]); destruct Ir.
  - assert (Rb : c_resbuf c = false) by (clear - K3 Z; destruct (c_resbuf c); [lia|reflexivity]). rewrite Rb in Ir.
    split; [intros X; exfalso; clear - X Z; unfold number_of in *; rewrite filter_app, app_length in X; lia|].
    clear - Ir Ee.
    destruct (negb (state_eqb (c_state c) C_EXE_SCHED)); [|destruct (in_set (c_prev c) [C_INI; C_EXE_WAIT; C_STG_WAIT]); [|destruct (state_eqb (c_prev c) C_EXPBUF_WAIT_ACK)]];
      [|destruct (exports g); [|destruct (c_expbuf c)]| |]; destruct (is_last_stage g c); cbn [In app] in Ir;
      repeat (destruct Ir as [Ir|Ir]; [injection Ir as <- <- <- <- <- <-; clear - Ee; grown Ee|]); destruct Ir.
Qed.
Lemma exchange_step g s x s' : to_main g = true -> asks_main g = false -> inv g (s_cmd s) -> exchange s ->
  (x = A_udev -> In Responded (trace s)) -> sys_step g s x = Ok s' -> exchange s'.
Proof.
  intros Tm Am I X Hu H. destruct x as [a|ok| | |].
  - exact (exchange_handler g s a s' Tm Am I X H).
  - cbn [sys_step] in H. destruct X as (W & Ee). unfold exchange, waiting, trace in *. destruct (c_sent (s_cmd s)) as [|[] l] eqn:Cs.
    + injection H as <-. rewrite Cs. split; assumption.
    + injection H as <-. cbn [s_cmd s_in with_sent emit c_trace c_state c_sent]. split; [|grown Ee]. rewrite !number_snoc. cbn [is_responded is_exported is_merged]. rewrite !Nat.add_0_r.
      intros Z. destruct (W Z) as (W1 & W2 & W3 & W4). split; [exact W1|]. split; [cbn [length] in W2; lia|]. split.
      * intros Y. right. destruct (W3 Y) as [(W5 & W6)|(W5 & _)]; [|discriminate W5]. injection W6 as ->. rewrite W5. auto.
      * intros Y. destruct (W4 Y) as (_ & W5). discriminate W5.
    + injection H as <-. cbn [s_cmd s_in with_sent c_trace c_state c_sent]. split; [|exact Ee]. intros Z. destruct (W Z) as (W1 & W2 & W3 & W4).
      destruct (state_eqb (c_state (s_cmd s)) C_EXPBUF_WAIT_ACK) eqn:S0.
      * assert (Y : c_state (s_cmd s) = C_EXPBUF_WAIT_ACK) by (destruct (c_state (s_cmd s)); (reflexivity || discriminate S0)). destruct (W3 Y) as [(_ & W5)|(W5 & _)]; discriminate W5.
      * assert (Y : c_state (s_cmd s) <> C_EXPBUF_WAIT_ACK) by (intros Y; rewrite Y in S0; discriminate S0). destruct (W4 Y) as (_ & W5). discriminate W5.
  - cbn [sys_step] in H. injection H as <-. destruct X as (W & Ee). split; [|exact Ee]. intros Z. destruct (number_in is_responded _ _ (Hu eq_refl) eq_refl Z).
  - cbn [sys_step] in H. destruct (s_in s) as [|m l] eqn:Si; [injection H as <-; exact X|]. destruct (c_ended (s_cmd s)) eqn:En; [injection H as <-; exact X|].
    set (c := match m with W_Resources => with_mem (s_cmd s) | _ => s_cmd s end) in *.
    assert (Ic : inv g c) by (destruct m; exact I). assert (Ec : c_ended c = false) by (destruct m; exact En).
    replace (match m with W_Umonitor => negb (to_main g) | _ => false end) with false in H by (rewrite Tm; destruct m; reflexivity).
    destruct (sched_inv g c Ic Ec) as (c' & r & E & I' & D). rewrite E in H. cbn [obind] in H. injection H as <-. destruct X as (W & Ee).
    assert (Tc : c_trace c' = c_trace (s_cmd s)) by (destruct D as [(_ & ->)|(_ & _ & _ & _ & _ & -> & _)]; destruct m; reflexivity).
    assert (Sc : c_sent c' = c_sent (s_cmd s)) by (destruct D as [(_ & ->)|(_ & _ & _ & _ & -> & _)]; destruct m; reflexivity).
    assert (Nc : c_state c' = C_EXE_SCHED) by (destruct D as [(Y & ->)|(_ & Y & _)]; exact Y).
    unfold exchange, waiting, trace in *. cbn [s_cmd s_in]. rewrite Tc, Sc, Nc. split; [|exact Ee]. intros Z. destruct (W Z) as (W1 & W2 & W3 & W4). rewrite Si in *.
    destruct (state_eqb (c_state (s_cmd s)) C_EXPBUF_WAIT_ACK) eqn:S0.
    + assert (Y : c_state (s_cmd s) = C_EXPBUF_WAIT_ACK) by (destruct (c_state (s_cmd s)); (reflexivity || discriminate S0)).
      destruct (W3 Y) as [(W5 & _)|(W5 & [W6|W6])]; [discriminate W5|discriminate W6|]. injection W6 as -> ->.
      split; [auto|]. split; [exact W2|]. split; [intros Q; discriminate Q|]. auto.
    + assert (Y : c_state (s_cmd s) <> C_EXPBUF_WAIT_ACK) by (intros Y; rewrite Y in S0; discriminate S0). destruct (W4 Y) as (W5 & _). discriminate W5.
  - cbn [sys_step] in H. destruct (c_timer (s_cmd s)) eqn:Ti; cbn [andb] in H; [|injection H as <-; exact X]. destruct (c_ended (s_cmd s)) eqn:En; cbn [negb] in H; [injection H as <-; exact X|].
    destruct (timer_inv g _ I En Ti) as (c' & r & E & I' & S0 & _ & _ & _ & Tc & _). rewrite E in H. cbn [obind] in H. injection H as <-. destruct X as (W & Ee).
    unfold exchange, trace in *. cbn [s_cmd]. rewrite Tc. split; [|exact Ee]. intros Z. destruct (W Z) as (W1 & _). rewrite S0 in W1. destruct W1 as [Q|[Q|Q]]; discriminate Q.
Qed.
Lemma udev_prefix g l x : udev_after_response g (l ++ [x]) -> udev_after_response g l.
Proof. intros H l1 l2 s E. apply (H l1 (l2 ++ [x]) s). rewrite E, <- app_assoc. reflexivity. Qed.
Lemma run_exchange g l s : to_main g = true -> asks_main g = false -> udev_after_response g l -> run g l = Ok s -> exchange s.
Proof.
  intros Tm Am. revert s. induction l as [|x l IH] using rev_ind; intros s U E.
  - unfold run in E. destruct (init_ok g) as (c & Ec). rewrite Ec in E. cbn [obind sys_steps] in E. injection E as <-.
    destruct (init_inv g c Ec) as (_ & S1 & _ & S3 & S4 & _). unfold exchange, waiting, trace. cbn [s_cmd s_in]. rewrite S1, S3, S4. split; [|apply each_nil].
    intros _. split; [auto|]. split; [reflexivity|]. split; [intros X; discriminate X|auto].
  - rewrite run_snoc in E. destruct (run_inv g l) as (s0 & E0 & I0). rewrite E0 in E. cbn [obind] in E.
    apply (exchange_step g s0 x s Tm Am I0 (IH s0 (udev_prefix _ _ _ U) E0)); [|exact E]. intros ->. exact (U l [] s0 eq_refl E0).
Qed.

(* The statements *)
Lemma run_fact g l s : run g l = Ok s -> inv g (s_cmd s).
Proof. intros E. destruct (run_inv g l) as (s' & E' & I). congruence. Qed.
Lemma no_ub_lemma g l : exists s, run g l = Ok s.
Proof. destruct (run_inv g l) as (s & E & _). eauto. Qed.
Lemma stages_lemma g l s : asks_main g = false -> run g l = Ok s -> exists k, stages_run (trace s) = seq 1 k /\ k <= Nat.max 1 (stage_count g).
Proof.
  intros A E. destruct (run_fact g l s E) as (_ & _ & _ & I4 & _ & _ & I7 & _ & I9). destruct (I9 A) as (_ & X & _). unfold trace. rewrite X. eexists. split; [reflexivity|].
  clear - I4. destruct (state_eqb _ _ && _); lia.
Qed.
Lemma one_response_lemma g l s : run g l = Ok s -> number_of is_responded (trace s) <= 1.
Proof. intros E. destruct (run_fact g l s E) as (_ & _ & _ & _ & _ & _ & (_ & K & _) & _). unfold trace. clear - K. lia. Qed.
Lemma failed_once g l s : run g l = Ok s -> number_of is_failed (trace s) <= 1.
Proof. intros E. destruct (run_fact g l s E) as (_ & _ & _ & _ & _ & _ & (K & _) & _). unfold trace. rewrite K. destruct (c_ended (s_cmd s)); auto. Qed.
Lemma finished_once g l s : run g l = Ok s -> number_of is_finished (trace s) <= 1.
Proof.
  intros E. destruct (run_fact g l s E) as (_ & _ & _ & _ & _ & _ & (_ & _ & _ & K) & _). unfold trace. destruct (c_ended (s_cmd s)); [exact K|]. rewrite K.
  destruct (c_state (s_cmd s)); try (clear; lia). destruct (c_prev (s_cmd s)); clear; lia.
Qed.
Lemma good_lemma g l s a e b : run g l = Ok s -> trace s = a ++ e :: b -> good_event a e.
Proof. intros E. destruct (run_fact g l s E) as (_ & _ & _ & _ & _ & _ & _ & G & _). apply G. Qed.
Lemma after_failed g l s a b e : run g l = Ok s -> trace s = a ++ Failed :: b -> In e b -> is_merged e = true.
Proof.
  intros E T I. destruct (in_split _ _ I) as (b1 & b2 & ->). change (Failed :: b1 ++ e :: b2) with ((Failed :: b1) ++ e :: b2) in T. rewrite app_assoc in T.
  destruct (good_lemma g l s _ _ _ E T) as (_ & G). destruct (is_merged e); [reflexivity|]. destruct (G eq_refl). apply in_or_app. right. left. reflexivity.
Qed.
Lemma after_response g l s a b e : run g l = Ok s -> trace s = a ++ e :: b -> e = Finished \/ (exists n, e = Ran n /\ 2 <= n) -> In Responded a.
Proof. intros E T. apply (good_lemma g l s a e b E T). Qed.
Lemma response_lemma g l s a b : to_main g = true -> asks_main g = false -> udev_after_response g l -> run g l = Ok s -> trace s = a ++ Responded :: b ->
  number_of is_exported a = number_of is_merged a.
Proof. intros Tm Am U E T. destruct (run_exchange g l s Tm Am U E) as (_ & G). exact (G a Responded b T eq_refl). Qed.
(* Finished and failed *)
Lemma results_finished g c s t r se ev en : In (Res s t r se ev en) (results g c) -> In Finished ev -> s = C_FIN /\ en = false.
Proof.
  unfold results, respond, endings. intros I F.
  destruct (negb (state_eqb (c_state c) C_EXE_SCHED)); [|destruct (in_set (c_prev c) [C_INI; C_EXE_WAIT; C_STG_WAIT]);
    [destruct (asks_main g && negb (c_mem c)); [|destruct (to_main g); [destruct (exports g); [|destruct (c_expbuf c)]|]]|destruct (state_eqb (c_prev c) C_EXPBUF_WAIT_ACK)]];
  destruct (c_resbuf c); destruct (is_last_stage g c); cbn [In app] in I;
  repeat (destruct I as [I|I]; [injection I as <- <- <- <- <- <-; first [split; reflexivity|exfalso; cbn [In] in F; repeat (destruct F as [F|F]; [discriminate F|]); exact F]|]); destruct I.
Qed.
Lemma finished_fin g l s : nothing_after_end g l -> run g l = Ok s -> In Finished (trace s) -> c_state (s_cmd s) = C_FIN /\ c_ended (s_cmd s) = false.
Proof.
  revert s. induction l as [|x l IH] using rev_ind; intros s U E F.
  { unfold run in E. destruct (init_ok g) as (c & Ec). rewrite Ec in E. injection E as <-. destruct (init_inv g c Ec) as (_ & _ & _ & _ & T & _). unfold trace in F. cbn [s_cmd] in F. rewrite T in F. destruct F. }
  rewrite run_snoc in E. destruct (run_inv g l) as (s0 & E0 & I0). rewrite E0 in E. cbn [obind] in E.
  assert (U0 : nothing_after_end g l) by (intros l1 l2 s1 H; apply (U l1 (l2 ++ [x]) s1); rewrite H, <- app_assoc; reflexivity).
  specialize (IH s0 U0 E0). assert (I := I0). destruct I as (I1 & I2 & I3 & _). destruct x as [a|ok| | |]; cbn [sys_step] in E.
  - destruct (c_armed (s_cmd s0)) eqn:Ar; cbn [andb] in E; [|injection E as <-; auto].
    destruct (c_ended (s_cmd s0)) eqn:En; cbn [negb] in E; [exfalso; injection E as <-; destruct (IH F) as (_ & Q); discriminate Q|].
    destruct (handler_inv g _ a I0 Ar En) as (c' & Eh & _ & [st ti re se ev en] & Ir & (F1 & F2 & F3 & F4 & F5 & F6 & F7 & F8 & F9)). rewrite Eh in E. cbn [obind] in E. injection E as <-.
    unfold trace in *. cbn [s_cmd] in *. rewrite F1, F7. rewrite F9 in F. apply in_app_or in F as [F|F]; [|exact (results_finished g _ _ _ _ _ _ _ Ir F)].
    destruct (IH F) as (Q & _). destruct (I2 eq_refl eq_refl) as [Y|Y]; congruence.
  - destruct (c_sent (s_cmd s0)) as [|[] m]; injection E as <-; unfold trace in *; cbn [s_cmd emit with_sent c_trace c_state c_ended] in *; auto.
    apply in_app_or in F as [F|[F|[]]]; [auto|discriminate F].
  - injection E as <-. auto.
  - destruct (s_in s0) as [|m r] eqn:Si; [injection E as <-; auto|]. destruct (c_ended (s_cmd s0)) eqn:En; [exfalso; injection E as <-; destruct (IH F) as (_ & Q); discriminate Q|].
    set (c := match m with W_Resources => with_mem (s_cmd s0) | _ => s_cmd s0 end) in *.
    assert (Ic : inv g c) by (destruct m; exact I0). assert (Ec : c_ended c = false) by (destruct m; exact En). assert (Tc : c_trace c = trace s0) by (destruct m; reflexivity).
    assert (F0 : In Finished (trace s0)).
    { destruct (match m with W_Umonitor => negb (to_main g) | _ => false end).
      - injection E as <-. unfold trace in F. cbn [s_cmd] in F. rewrite Tc in F. exact F.
      - destruct (sched_inv g c Ic Ec) as (c' & q & Eq & _ & D). rewrite Eq in E. cbn [obind] in E. injection E as <-. unfold trace in F. cbn [s_cmd] in F.
        rewrite <- Tc. destruct D as [(_ & ->)|(_ & _ & _ & _ & _ & D & _)]; [exact F|]. rewrite D in F. exact F. }
    assert (Bad := U l [] s0 eq_refl E0 F0). rewrite Si in Bad. discriminate Bad.
  - destruct (c_timer (s_cmd s0)) eqn:Ti; cbn [andb] in E; [|injection E as <-; auto]. destruct (c_ended (s_cmd s0)) eqn:En; cbn [negb] in E; [exfalso; injection E as <-; destruct (IH F) as (_ & Q); discriminate Q|].
    destruct (timer_inv g _ I0 En Ti) as (c' & r & Ec & _ & S0 & _ & _ & _ & Tc & _). rewrite Ec in E. cbn [obind] in E. injection E as <-. unfold trace in *. cbn [s_cmd] in *. rewrite Tc in F.
    destruct (IH F) as (Q & _). congruence.
Qed.
Lemma one_end g l s : nothing_after_end g l -> run g l = Ok s -> ~ (In Finished (trace s) /\ In Failed (trace s)).
Proof.
  intros U E (F & D). destruct (finished_fin g l s U E F) as (_ & En). destruct (run_fact g l s E) as (_ & _ & _ & _ & _ & _ & (K & _) & _). rewrite En in K.
  exact (number_in is_failed _ _ D eq_refl K).
Qed.
