From Verif Require Import Base ResEv_Model ResEv_Spec.
Local Open Scope N_scope.

Definition U : N := 18446744073709551615.
Record ok (e : ev) : Prop := { o_le : e_fired e <= e_max e; o_max : e_max e <= U; o_fired : e_fired e < U; o_off : e_on e = Off <-> e_fired e = e_max e; o_one : e_on e = Oneshot -> e_fired e + 1 = e_max e }.
Lemma add64_ok a b : a + b <= U -> add64 a b = a + b.
Proof. intros H. unfold add64. apply N.mod_small. unfold U in H. lia. Qed.
Lemma add64_over a b : a <= U -> b <= U -> U < a + b -> add64 a b = a + b - 18446744073709551616.
Proof. unfold U, add64. intros Ha Hb H. replace (a + b) with (a + b - 18446744073709551616 + 1 * 18446744073709551616) at 1 by lia. rewrite N.mod_add by lia. apply N.mod_small. lia. Qed.
Lemma create_ok max : max <= U -> ok (create max).
Proof.
  intros H. unfold create. constructor; cbn [e_fired e_max e_on]; try (unfold U in *; lia).
  - destruct (N.eqb_spec max 0) as [->|]; [tauto|]. destruct (N.eqb_spec max 1); split; intros E; try discriminate E; lia.
  - destruct (N.eqb_spec max 0); [discriminate|]. destruct (N.eqb_spec max 1); [lia|discriminate].
Qed.
Lemma set_max e d n : e_fired e < U -> n <= U -> e_max (set_counter e d n) = allowed (e_fired e) d n.
Proof.
  intros F H. unfold set_counter, allowed. fold U. change UNLIMITED with U. destruct (N.eqb_spec n U) as [->|N]; [reflexivity|]. cbn [e_max]. destruct d.
  - destruct (N.ltb_spec n (e_fired e)); lia.
  - destruct (N.le_gt_cases (e_fired e + n) U) as [L|L].
    + rewrite add64_ok by exact L. destruct (N.eqb_spec (e_fired e + n) U) as [E|E]; cbn [orb]; [lia|]. destruct (N.ltb_spec (e_fired e + n) (e_fired e)); lia.
    + rewrite add64_over by lia. destruct (N.ltb_spec (e_fired e + n - 18446744073709551616) (e_fired e)) as [X|X]; [|unfold U in *; lia]. rewrite orb_true_r. lia.
Qed.
Lemma allowed_le f d n : f < U -> n <= U -> f <= allowed f d n /\ allowed f d n <= U.
Proof. unfold allowed. change UNLIMITED with U. destruct (N.eqb_spec n U) as [->|]; [lia|]. destruct d; lia. Qed.
Lemma set_fired e d n : e_fired (set_counter e d n) = e_fired e.
Proof. unfold set_counter. destruct (n =? UNLIMITED); reflexivity. Qed.
Lemma set_ok e d n : e_fired e < U -> n <= U -> ok (set_counter e d n).
Proof.
  intros F H. destruct (allowed_le (e_fired e) d n F H) as [A1 A2]. pose proof (set_max e d n F H) as M. constructor; rewrite ?M, ?set_fired; auto.
  - rewrite <- M. unfold set_counter. change UNLIMITED with U. destruct (N.eqb_spec n U) as [->|N]; cbn [e_on e_max]; [split; [discriminate|lia]|].
    set (max := match d with ABS => _ | REL => _ end). destruct (N.eqb_spec (e_fired e) max) as [E|E]; [tauto|]. destruct (add64 (e_fired e) 1 =? max); split; intros X; try discriminate X; contradiction.
  - rewrite <- M. unfold set_counter. change UNLIMITED with U. destruct (N.eqb_spec n U) as [->|N]; cbn [e_on e_max]; [discriminate|].
    set (max := match d with ABS => _ | REL => _ end). destruct (N.eqb_spec (e_fired e) max) as [E|E]; [discriminate|]. rewrite add64_ok by lia. destruct (N.eqb_spec (e_fired e + 1) max); [auto|discriminate].
Qed.
Lemma calls_ok calls : forall e, ok e -> Forall (fun c => snd c <= UNLIMITED) calls -> ok (fold_left (fun e c => set_counter e (fst c) (snd c)) calls e) /\ e_fired (fold_left (fun e c => set_counter e (fst c) (snd c)) calls e) = e_fired e.
Proof.
  induction calls as [|[d n] calls IH]; intros e O F; [auto|]. inversion F as [|? ? F1 F2]; subst. cbn [fold_left fst snd]. destruct (IH (set_counter e d n)) as [O' E]; [apply set_ok; [apply (o_fired _ O)|exact F1]|exact F2|]. split; [exact O'|]. rewrite E. apply set_fired.
Qed.
Lemma count_ok e : ok e -> e_on e <> Off -> e_fired e + 1 < U -> let e1 := count (match e_on e with Oneshot => Ev (e_fired e) (e_max e) Off | _ => e end) in ok e1 /\ e_fired e1 = e_fired e + 1 /\ e_max e1 = e_max e.
Proof.
  intros O N B. pose proof (o_le _ O) as L. pose proof (o_max _ O) as M. assert (Ne : e_fired e <> e_max e) by (rewrite <- (o_off _ O); exact N).
  set (e0 := match e_on e with Oneshot => Ev (e_fired e) (e_max e) Off | _ => e end). assert (E1 : e_fired e0 = e_fired e) by (unfold e0; destruct (e_on e); reflexivity). assert (E2 : e_max e0 = e_max e) by (unfold e0; destruct (e_on e); reflexivity).
  cbn zeta. unfold count. rewrite E1, E2, add64_ok by lia. cbn [e_fired e_max]. split; [|auto]. change UNLIMITED with U. constructor; cbn [e_fired e_max e_on]; try lia.
  - destruct (N.eqb_spec (e_fired e + 1) (e_max e)) as [E|E].
    + destruct (N.eqb_spec (e_max e) U); [lia|]. cbn [negb andb]. tauto.
    + rewrite andb_false_r. split; [|contradiction]. unfold e0. destruct (e_on e) eqn:Eo; cbn [e_on]; intros X; try congruence. exfalso. apply E, (o_one _ O), Eo.
  - destruct (negb (e_max e =? U) && (e_fired e + 1 =? e_max e)); [discriminate|]. unfold e0. destruct (e_on e) eqn:Eo; cbn [e_on]; intros X; congruence.
Qed.
Lemma dispatch_ok child e ran calls z : ok e -> e_on e <> Off -> e_fired e + 1 < U -> fine child (Fires ran calls z) -> ok (dispatch child e ran calls z) /\ e_fired (dispatch child e ran calls z) = e_fired e + 1
  /\ (calls = [] -> e_max (dispatch child e ran calls z) <= e_max e) /\ ((0 <= z)%Z -> calls = [] -> e_max (dispatch child e ran calls z) = e_max e).
Proof.
  intros O N B (Fc & Fr & Fu). destruct (count_ok e O N B) as (O1 & E1 & M1). unfold dispatch. set (e1 := count _) in *. destruct (calls_ok calls e1 O1 Fu) as [O2 E2]. set (e2 := fold_left _ calls e1) in *.
  assert (M2 : calls = [] -> e_max e2 = e_max e) by (intros ->; exact M1).
  assert (Ef : failed child ran z = (z <? 0)%Z).
  { unfold failed. destruct child; [rewrite (Fc eq_refl); destruct ran; reflexivity|]. destruct ran; [reflexivity|]. destruct (Fr eq_refl) as [_ Hz]. cbn [andb]. destruct (Z.ltb_spec z 0); [lia|reflexivity]. }
  rewrite Ef. destruct (Z.ltb_spec z 0) as [L|L]; cbn [e_fired e_max e_on].
  - pose proof (o_fired _ O2). split; [constructor; cbn [e_fired e_max e_on]; try lia; [tauto|discriminate]|]. split; [congruence|]. split; [|lia]. intros E. rewrite <- (M2 E). apply (o_le _ O2).
  - split; [exact O2|]. split; [congruence|]. split; intros; rewrite M2; auto; lia.
Qed.
Theorem happens_ok child e l e' : happens child e l e' -> ok e -> Forall (fine child) l -> e_fired e + N.of_nat (fires l) < U -> ok e' /\ e_fired e' = e_fired e + N.of_nat (fires l).
Proof.
  induction 1 as [e|e ran calls z l e' N H IH|e d n l e' H IH]; intros O F B.
  - split; [exact O|]. cbn. lia.
  - inversion F as [|? ? F1 F2]; subst. unfold fires in *. cbn [filter length] in *. destruct (dispatch_ok child e ran calls z O N ltac:(lia) F1) as (O1 & E1 & _). destruct (IH O1 F2 ltac:(rewrite E1; lia)) as [O2 E2]. split; [exact O2|]. rewrite E2, E1. lia.
  - inversion F as [|? ? F1 F2]; subst. unfold fires in *. cbn [filter] in *. destruct (IH (set_ok e d n (o_fired _ O) F1) F2 ltac:(rewrite set_fired; lia)) as [O2 E2]. split; [exact O2|]. rewrite E2, set_fired. lia.
Qed.
Theorem happens_max child e l e' : happens child e l e' -> ok e -> Forall (fine child) l -> Forall undisturbed l -> e_fired e + N.of_nat (fires l) < U -> e_max e' <= e_max e.
Proof.
  induction 1 as [e|e ran calls z l e' N H IH|e d n l e' H IH]; intros O F D B.
  - lia.
  - inversion F as [|? ? F1 F2]; subst. inversion D as [|? ? D1 D2]; subst. cbn [undisturbed] in D1. unfold fires in *. cbn [filter length] in *. destruct (dispatch_ok child e ran calls z O N ltac:(lia) F1) as (O1 & E1 & M1 & _). specialize (IH O1 F2 D2 ltac:(rewrite E1; lia)). specialize (M1 D1). lia.
  - inversion D as [|? ? D1 D2]; subst. destruct D1.
Qed.
Lemma set_on e d n : e_fired e < U -> n <= U -> e_on (set_counter e d n) = Off <-> e_fired e = allowed (e_fired e) d n.
Proof. intros F H. rewrite (o_off _ (set_ok e d n F H)), set_max, set_fired by assumption. reflexivity. Qed.
Lemma limit_kept child max l e : max <= UNLIMITED -> happens child (create max) l e -> Forall (fine child) l -> N.of_nat (fires l) < UNLIMITED -> e_fired e = N.of_nat (fires l) /\ e_fired e <= e_max e /\ (e_on e = Off <-> e_fired e = e_max e).
Proof. intros Hm H F B. destruct (happens_ok child _ l e H (create_ok max Hm) F ltac:(cbn [create e_fired]; unfold U; unfold UNLIMITED in B; lia)) as [O E]. cbn [create e_fired] in E. split; [lia|]. split; [apply (o_le _ O)|apply (o_off _ O)]. Qed.
Lemma set_limit_kept child max l d n l' e e' : max <= UNLIMITED -> happens child (create max) l e -> happens child (set_counter e d n) l' e' -> Forall (fine child) (l ++ l') -> n <= UNLIMITED -> Forall undisturbed l' ->
  N.of_nat (fires l + fires l') < UNLIMITED -> N.of_nat (fires l + fires l') <= allowed (N.of_nat (fires l)) d n.
Proof.
  intros Hm H H' F Hn D B. apply Forall_app in F as [F F']. unfold UNLIMITED in B.
  destruct (happens_ok child _ l e H (create_ok max Hm) F ltac:(cbn [create e_fired]; unfold U; lia)) as [O E]. cbn [create e_fired] in E. pose proof (set_ok e d n (o_fired _ O) Hn) as O1.
  destruct (happens_ok child _ l' e' H' O1 F' ltac:(rewrite set_fired; unfold U; lia)) as [O' E']. pose proof (happens_max child _ l' e' H' O1 F' D ltac:(rewrite set_fired; unfold U; lia)) as M. rewrite set_max in M by (try apply (o_fired _ O); exact Hn). rewrite set_fired in E'. pose proof (o_le _ O'). rewrite E, N.add_0_l in *. lia.
Qed.
Lemma set_exact e d n : e_fired e < UNLIMITED -> n <= UNLIMITED -> e_max (set_counter e d n) = allowed (e_fired e) d n /\ e_fired (set_counter e d n) = e_fired e /\ e_fired e <= allowed (e_fired e) d n <= UNLIMITED /\ (e_on (set_counter e d n) = Off <-> e_fired e = allowed (e_fired e) d n).
Proof. intros F H. split; [apply set_max; assumption|]. split; [apply set_fired|]. split; [apply allowed_le; assumption|apply set_on; assumption]. Qed.
Lemma keeps_limit child e ran z : e_fired e <= e_max e -> e_max e <= UNLIMITED -> (e_on e = Off <-> e_fired e = e_max e) -> (e_on e = Oneshot -> e_fired e + 1 = e_max e) -> e_on e <> Off -> e_fired e + 1 < UNLIMITED -> (0 <= z)%Z -> (child = true -> z = 0%Z) ->
  let e' := dispatch child e ran [] z in e_fired e' = e_fired e + 1 /\ e_max e' = e_max e /\ (e_on e' = Off <-> e_fired e + 1 = e_max e).
Proof.
  intros H1 H2 H3 H4 N B Z C. assert (O : ok e) by (constructor; auto; unfold U; unfold UNLIMITED in *; lia). destruct (dispatch_ok child e ran [] z O N B) as (O1 & E1 & _ & M1); [repeat split; auto|]. cbn zeta. rewrite E1, (M1 Z eq_refl). split; [reflexivity|]. split; [reflexivity|]. rewrite (o_off _ O1), E1, (M1 Z eq_refl). reflexivity.
Qed.
