From Verif Require Import Base ResEv_Model ResEvNew_Model ResEvNew_Spec ResEvNew_Proofs.
Local Open Scope nat_scope.

(* C121: after any history of creations and destructions the sd-event sources are those of the event sources, in their loops *)
Theorem event_sources_matched : forall t sigs acts, grown t -> Forall fits acts -> exists s, steps t (nothing sigs) acts = Ok s /\ matched t s.
Proof. exact history_lemma. Qed.
Print Assumptions event_sources_matched.
Theorem one_signal_source : forall t s r x r' x' l, reached t s -> In (r, x) (s_srcs s) -> In (r', x') (s_srcs s) -> x_kind x = KSignal -> x_kind x' = KSignal -> nearest t r l -> nearest t r' l -> x = x'.
Proof. exact one_signal. Qed.
Print Assumptions one_signal_source.
(* a creation makes one source or, with a negative result, changes nothing *)
Theorem plain_created : forall t s c r k prio name, reached t s -> plain_kind k -> exists s' e, create_plain t s c r k prio (Some name) = (s', e)
  /\ (e = 0%Z /\ one_more t s s' r k name (times k) 0 /\ s_mask s' = s_mask s \/ (e < 0)%Z /\ untouched s s').
Proof. exact plain_theorem. Qed.
Print Assumptions plain_created.
Theorem signal_created : forall t s c r mask prio name, reached t s -> exists s' e, create_signal t s c r mask prio (Some name) = (s', e)
  /\ (e = 0%Z /\ one_more t s s' r KSignal name (times KSignal) 0 /\ s_mask s' = mask ++ s_mask s \/ (e < 0)%Z /\ untouched s s').
Proof. exact signal_theorem. Qed.
Print Assumptions signal_created.
Theorem time_created_partial : forall t s c r d usec prio name, reached t s -> (0 <= c_now c)%Z \/ d = ABS -> exists s' e, create_time t s c r d usec prio (Some name) = (s', e)
  /\ (e = 0%Z /\ one_more t s s' r KTime name (times KTime) (deadline (c_time c) d usec) /\ s_mask s' = s_mask s \/ (e < 0)%Z /\ untouched s s').
Proof. exact time_theorem. Qed.
Print Assumptions time_created_partial.
(* and does so whenever the library can and there is a loop *)
Theorem plain_succeeds : forall t s c r k prio name l, grown t -> lucky c -> nearest t r l -> snd (create_plain t s c r k prio name) = 0%Z.
Proof. exact lucky_plain. Qed.
Print Assumptions plain_succeeds.
Theorem time_succeeds : forall t s c r d usec prio name l, grown t -> lucky c -> nearest t r l -> (d = REL -> c_time c + usec < 18446744073709551615)%N -> snd (create_time t s c r d usec prio name) = 0%Z.
Proof. exact lucky_time. Qed.
Print Assumptions time_succeeds.
Theorem time_too_late : forall t s c r usec prio name l, grown t -> nearest t r l -> (0 <= c_now c)%Z -> (18446744073709551615 <= c_time c + usec)%N -> create_time t s c r REL usec prio name = (s, (-75)%Z).
Proof. exact late_time. Qed.
Print Assumptions time_too_late.
Theorem no_loop_refused : forall t s c r, grown t -> (forall l, ~ nearest t r l) -> (forall k prio name, create_plain t s c r k prio name = (s, (-123)%Z)) /\ (forall mask prio name, create_signal t s c r mask prio name = (s, (-123)%Z))
  /\ (forall d usec prio name, create_time t s c r d usec prio name = (s, (-123)%Z)).
Proof. exact no_loop. Qed.
Print Assumptions no_loop_refused.
Theorem source_destroyed : forall t s r x, reached t s -> In (r, x) (s_srcs s) -> exists s', destroy s (x_sd x) = Ok s'
  /\ (forall y, In y (s_srcs s') <-> In y (s_srcs s) /\ y <> (r, x)) /\ (forall y, In y (s_sd s') <-> In y (s_sd s) /\ snd y <> x_sd x).
Proof. exact destroy_theorem. Qed.
Print Assumptions source_destroyed.
(* refuted: a result that is not negative means that there is a timer.  If the clock cannot be read the result is 1 and there is none *)
Theorem time_created_refuted : forall t s c r usec prio name l, grown t -> nearest t r l -> (c_now c < 0)%Z -> create_time t s c r REL usec prio name = (s, 1%Z).
Proof. exact clock_lemma. Qed.
Print Assumptions time_created_refuted.
(* refuted: a source for signals can be made again once the one there was is destroyed, or once its creation failed *)
Theorem signal_again_refuted : forall t s c r mask prio name l, grown t -> nearest t r l -> (0 <= c_mask c)%Z -> (0 <= c_sigfd c)%Z ->
  forall acts s', steps t (fst (create_signal t s c r mask prio name)) acts = Ok s' -> forall r' c' mask' prio' name', nearest t r' l -> (0 <= c_mask c')%Z -> snd (create_signal t s' c' r' mask' prio' name') = (-98)%Z.
Proof. exact signal_again. Qed.
Print Assumptions signal_again_refuted.
(* refuted: a source created without a name can be destroyed.  Its name is printed and was never set *)
Theorem unnamed_source_refuted : forall t s c r k prio l, reached t s -> nearest t r l -> lucky c -> exists s' sd, create_plain t s c r k prio None = (s', 0%Z) /\ destroy s' sd = UB /\ exists x, In (r, x) (s_srcs s') /\ x_sd x = sd.
Proof. exact unnamed_theorem. Qed.
Print Assumptions unnamed_source_refuted.

(* C122: a timer that is set again fires once more, at the time given *)
Theorem timer_again : forall t r x d usec set clock now time, (0 <= clock)%Z -> (0 <= now)%Z -> set = 0%Z -> (exists l, nearest t r l) -> grown t -> (d = REL -> time + usec < 18446744073709551615)%N -> (e_fired (x_ev x) < 18446744073709551613)%N ->
  rearm t r x d usec set clock now time = (Src (x_sd x) (x_kind x) (x_name x) (Ev (e_fired (x_ev x)) (e_fired (x_ev x) + 1) Oneshot) (deadline time d usec), 0%Z).
Proof. exact rearm_lemma. Qed.
Print Assumptions timer_again.
Theorem timer_kept : forall t r x d usec set clock now time x' e, rearm t r x d usec set clock now time = (x', e) -> e <> 0%Z -> x' = x.
Proof. exact rearm_fails. Qed.
Print Assumptions timer_kept.
(* refuted: a failure gives a negative result.  With an absolute time it gives 1 *)
Theorem timer_failure_refuted : forall t r x usec set clock now time, (set < 0)%Z -> rearm t r x ABS usec set clock now time = (x, 1%Z).
Proof. exact rearm_refuted. Qed.
Print Assumptions timer_failure_refuted.

Definition en_tree : tree := [(None, true); (Some 0, false); (Some 1, false); (Some 1, true); (None, false)].
Definition en_lib : lib := Lib 0 0 true true 0 1000 0 7.
Example en_grown : grown en_tree.
Proof. intros r p b E. do 5 (destruct r as [|r]; [cbn in E; first [discriminate E|injection E as <- _; lia]|]). destruct r; discriminate E. Qed.
Example en_near : nearest en_tree 2 0 /\ nearest en_tree 3 3 /\ forall l, ~ nearest en_tree 4 l.
Proof.
  split; [apply (Near_up _ 2 1); [reflexivity|]; apply (Near_up _ 1 0); [reflexivity|]; apply (Near_own _ 0 None); reflexivity|]. split; [apply (Near_own _ 3 (Some 1)); reflexivity|].
  intros l N. inversion N as [r p E|r p l' E N']; subst; discriminate E.
Qed.
Definition en_acts : list call := [CPlain en_lib 2 KIo 0 (B "io"); CSignal en_lib 3 [15; 2] 5 (B "signals"); CTime en_lib 1 REL 500 0 (B "timer"); CTime (Lib (-12) 0 true true 0 0 0 0) 1 ABS 500 0 (B "none"); CDestroy 0].
Definition en_st : st := St [(3, Src 1 KSignal (Some (B "signals")) (Ev 0 UNLIMITED On) 0); (1, Src 2 KTime (Some (B "timer")) (Ev 0 1 Oneshot) 1500)] [(0, 2); (3, 1)] 3 [3] [15; 2; 9].
Example en_run : steps en_tree (nothing [9]) en_acts = Ok en_st.
Proof. vm_compute. reflexivity. Qed.
Example en_reached : reached en_tree en_st.
Proof. split; [exact en_grown|]. exists [9], en_acts. split; [repeat constructor; discriminate|exact en_run]. Qed.
Example en_lucky : lucky en_lib.
Proof. split; [cbn; lia|reflexivity]. Qed.
Example en_clock : create_time en_tree en_st (Lib 0 0 true true (-10) 0 0 0) 1 REL 500 0 (Some (B "t")) = (en_st, 1%Z).
Proof. vm_compute. reflexivity. Qed.
(* the creation fails after the signalfd was made; every later one is refused *)
Example en_signal : let s := fst (create_signal en_tree (nothing []) (Lib (-12) 0 true true 0 0 0 7) 2 [15] 0 (Some (B "s"))) in
  s_srcs s = [] /\ s_sd s = [] /\ s_mask s = [] /\ snd (create_signal en_tree s en_lib 2 [15] 0 (Some (B "s"))) = (-98)%Z.
Proof. vm_compute. auto. Qed.
Example en_again : rearm en_tree 1 (Src 2 KTime (Some (B "timer")) (Ev 1 1 Off) 1500) REL 250 0 0 0 2000 = (Src 2 KTime (Some (B "timer")) (Ev 1 2 Oneshot) 2250, 0%Z).
Proof. vm_compute. reflexivity. Qed.
