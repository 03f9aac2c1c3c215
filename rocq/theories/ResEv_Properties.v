From Verif Require Import Base ResEv_Model ResEv_Spec ResEv_Proofs.
Local Open Scope N_scope.

(* C43.  A source never fires more often than its counter allows, and is off exactly if the limit is reached, whatever is done between
   (fewer than 2^64 - 1 times in all).  Handlers of child processes return 0 (see below). *)
Theorem fires_within_limit_partial : forall child max l e, max <= UNLIMITED -> happens child (create max) l e -> Forall (fine child) l -> N.of_nat (fires l) < UNLIMITED ->
  e_fired e = N.of_nat (fires l) /\ e_fired e <= e_max e /\ (e_on e = Off <-> e_fired e = e_max e).
Proof. exact limit_kept. Qed.
Print Assumptions fires_within_limit_partial.
(* As long as nobody sets the counter again, it fires at most as often as was set last. *)
Theorem fires_as_set_partial : forall child max l d n l' e e', max <= UNLIMITED -> happens child (create max) l e -> happens child (set_counter e d n) l' e' -> Forall (fine child) (l ++ l') -> n <= UNLIMITED -> Forall undisturbed l' ->
  N.of_nat (fires l + fires l') < UNLIMITED -> N.of_nat (fires l + fires l') <= allowed (N.of_nat (fires l)) d n.
Proof. exact set_limit_kept. Qed.
Print Assumptions fires_as_set_partial.
(* Setting the counter, absolutely or relatively, saturates: never below what was fired, never wrapping; the source is off exactly if none is
   left. *)
Theorem set_counter_saturates : forall e d n, e_fired e < UNLIMITED -> n <= UNLIMITED ->
  e_max (set_counter e d n) = allowed (e_fired e) d n /\ e_fired (set_counter e d n) = e_fired e /\ e_fired e <= allowed (e_fired e) d n <= UNLIMITED /\ (e_on (set_counter e d n) = Off <-> e_fired e = allowed (e_fired e) d n).
Proof. exact set_exact. Qed.
Print Assumptions set_counter_saturates.
(* A source that is not off and whose handler does not fail keeps its limit. *)
Theorem firing_keeps_limit : forall child e ran z, e_fired e <= e_max e -> e_max e <= UNLIMITED -> (e_on e = Off <-> e_fired e = e_max e) -> (e_on e = Oneshot -> e_fired e + 1 = e_max e) -> e_on e <> Off -> e_fired e + 1 < UNLIMITED -> (0 <= z)%Z -> (child = true -> z = 0%Z) ->
  let e' := dispatch child e ran [] z in e_fired e' = e_fired e + 1 /\ e_max e' = e_max e /\ (e_on e' = Off <-> e_fired e + 1 = e_max e).
Proof. exact keeps_limit. Qed.
Print Assumptions firing_keeps_limit.
Example counters_ex :
  let e := create UNLIMITED in let e1 := set_counter e REL 3 in let e2 := dispatch false e1 true [] 0 in let e3 := dispatch false e2 true [] 0 in let e4 := dispatch false e3 true [] 0 in
  e1 = Ev 0 3 On /\ e3 = Ev 2 3 On /\ e4 = Ev 3 3 Off /\ set_counter e4 ABS 1 = Ev 3 3 Off /\ set_counter e4 REL 1 = Ev 3 4 Oneshot /\ set_counter e4 REL (UNLIMITED - 1) = Ev 3 (UNLIMITED - 1) On /\ dispatch false (set_counter e4 REL 5) true [] (-1) = Ev 4 4 Off
  /\ happens false e [Sets REL 3; Fires true [] 0; Fires true [] 0; Fires true [] 0] e4 /\ Forall (fine false) [Sets REL 3; Fires true [] 0; Fires true [] 0; Fires true [] 0].
Proof.
  repeat split; try (apply E_set; repeat (apply E_fire; [discriminate|]); apply E_none).
  repeat constructor; cbn; try discriminate; intros; discriminate.
Qed.
(* Refuted for child processes: the test of the result is the other way round (src/resource/res.c:690).  A handler that returns a positive
   number makes the limit what has been fired and yet leaves the source on, so that it fires beyond its limit; one that fails is turned off
   with its limit not reached. *)
Theorem child_fires_beyond_limit_refuted : exists e e', happens true (create UNLIMITED) [Fires true [] 1] e /\ e = Ev 1 1 On /\ happens true e [Fires true [] 0] e' /\ e_max e' < e_fired e'.
Proof. eexists. eexists. split; [apply E_fire; [discriminate|apply E_none]|]. split; [reflexivity|]. split; [apply E_fire; [discriminate|apply E_none]|]. reflexivity. Qed.
Print Assumptions child_fires_beyond_limit_refuted.
Theorem child_failure_keeps_limit_refuted : exists e, happens true (set_counter (create UNLIMITED) ABS 5) [Fires true [] (-1)] e /\ e = Ev 1 5 Off.
Proof. eexists. split; [apply E_fire; [discriminate|apply E_none]|]. reflexivity. Qed.
Print Assumptions child_failure_keeps_limit_refuted.
(* Refuted: set to a number fired already the source is off, but set once to UNLIMITED it fires without end and its count wraps. *)
Theorem count_wraps_refuted : exists e, e = dispatch false (Ev UNLIMITED UNLIMITED On) true [] 0 /\ e_fired e = 0.
Proof. eexists. split; reflexivity. Qed.
Print Assumptions count_wraps_refuted.
