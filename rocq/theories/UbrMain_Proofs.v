From Verif Require Import Base ResEv_Model WrkLife_Model UbrMain_Model UbrMain_Spec.
Local Open Scope nat_scope.

Lemma bytes_eqb_eq a b : bytes_eqb a b = true <-> a = b.
Proof. unfold bytes_eqb. destruct (list_eq_dec ascii_dec a b); intuition discriminate. Qed.
Lemma find_worker_iff l id : find_worker l id = true <-> id <> [] /\ exists s, In (id, s) l.
Proof.
  unfold find_worker. destruct id as [|c id]; [intuition discriminate|]. rewrite existsb_exists. split.
  - intros ([i s] & H & E). apply bytes_eqb_eq in E. cbn [fst] in E. subst i. split; [discriminate|exists s; exact H].
  - intros (_ & s & H). exists (c :: id, s). split; [exact H|apply bytes_eqb_eq; reflexivity].
Qed.
Lemma dispatch_on e z : (0 <= z)%Z -> e_max e = UNLIMITED -> e_on e = On -> e_max (dispatch false e true [] z) = UNLIMITED /\ e_on (dispatch false e true [] z) = On.
Proof.
  intros L M O. unfold dispatch, count, failed. rewrite O. cbn [fold_left e_max e_on e_fired andb]. rewrite M. cbn [N.eqb]. change (UNLIMITED =? UNLIMITED)%N with true. cbn [negb andb]. rewrite O.
  destruct (Z.ltb_spec z 0) as [X|_]; [lia|]. auto.
Qed.
Lemma dispatch_off e z : (z < 0)%Z -> e_on (dispatch false e true [] z) = Off.
Proof. intros L. unfold dispatch. destruct (Z.ltb_spec z 0) as [_|X]; [reflexivity|lia]. Qed.
Lemma uevents_app m l : uevents (Main (m_workers m) (m_mon m) (m_ifc m) (m_sent m ++ l)) = uevents m ++ map fst (filter (fun x => match snd x with NUevent => true | NClient => false end) l).
Proof. unfold uevents. cbn [m_sent]. rewrite filter_app, map_app. reflexivity. Qed.

(* sources *)
Definition live (e : ev) : Prop := e_max e = UNLIMITED /\ e_on e = On.
Lemma live_off e : live e -> off e = false. Proof. intros (_ & O). unfold off. rewrite O. reflexivity. Qed.
Lemma on_client_out l uuid made accepted r : let '(_, out, _) := on_client l uuid made accepted r in filter (fun x => match snd x with NUevent => true | NClient => false end) out = [].
Proof.
  unfold on_client, get_worker, send. destruct (idle_worker l) as [i|].
  - destruct (negb accepted); [reflexivity|]. destruct (r <? 0)%Z; reflexivity.
  - destruct made; [|reflexivity]. destruct (negb accepted); [reflexivity|]. destruct (r <? 0)%Z; reflexivity.
Qed.
Lemma on_uevent_out l recv session r : let '(_, out, _) := on_uevent l recv session r in filter (fun x => match snd x with NClient => true | NUevent => false end) out = [].
Proof. unfold on_uevent, send. destruct recv; [|reflexivity]. destruct session as [id|]; [|reflexivity]. destruct (find_worker l id); [|reflexivity]. destruct (r <? 0)%Z; reflexivity. Qed.
Lemma uevents_client m a : ~ is_uevent a -> uevents (mstep m a) = uevents m /\ m_mon (mstep m a) = m_mon m.
Proof.
  intros N. destruct a as [recv session r|uuid made accepted r|id|id|id]; cbn [mstep]; try (split; reflexivity); [elim N; exact I|].
  destruct (off (m_ifc m)); [split; reflexivity|]. pose proof (on_client_out (m_workers m) uuid made accepted r) as H. destruct (on_client _ _ _ _ _) as [[l out] z]. split; [|reflexivity].
  unfold uevents. cbn [m_sent]. rewrite filter_app, H, app_nil_r. reflexivity.
Qed.
Lemma clients_uevent m a : ~ is_client a -> clients (mstep m a) = clients m /\ m_ifc (mstep m a) = m_ifc m.
Proof.
  intros N. destruct a as [recv session r|uuid made accepted r|id|id|id]; cbn [mstep]; try (split; reflexivity); [|elim N; exact I].
  destruct (off (m_mon m)); [split; reflexivity|]. pose proof (on_uevent_out (m_workers m) recv session r) as H. destruct (on_uevent _ _ _ _) as [[l out] z]. split; [|reflexivity].
  unfold clients. cbn [m_sent]. rewrite filter_app, H, app_nil_r. reflexivity.
Qed.
Lemma good_run l : forall m, live (m_mon m) -> all_good m l -> uevents (mrun m l) = uevents m ++ sessions l /\ live (m_mon (mrun m l)).
Proof.
  induction l as [|a l IH]; intros m L G; [cbn; rewrite app_nil_r; auto|]. destruct G as (Ga & G). unfold mrun. cbn [fold_left]. fold (mrun (mstep m a) l).
  assert (S : uevents (mstep m a) = uevents m ++ sessions [a] /\ live (m_mon (mstep m a))).
  { destruct a as [recv session r|uuid made accepted r|id|id|id].
    - destruct Ga as (-> & -> & id & -> & Ne & W). cbn [mstep]. rewrite (live_off _ L). unfold on_uevent. cbn [negb]. rewrite (proj2 (find_worker_iff _ id) (conj Ne W)). unfold send. change (0 <? 0)%Z with false. cbv iota. split.
      + unfold uevents. cbn [m_sent]. rewrite filter_app, map_app. reflexivity.
      + cbn [m_mon]. destruct L as (M & O). apply dispatch_on; [lia|exact M|exact O].
    - destruct (uevents_client m (AClient uuid made accepted r)) as (-> & ->); [intros []|]. cbn. rewrite app_nil_r. auto.
    - cbn. rewrite app_nil_r. auto.
    - cbn. rewrite app_nil_r. auto.
    - cbn. rewrite app_nil_r. auto. }
  destruct S as (S1 & S2). destruct (IH (mstep m a) S2 G) as (R1 & R2). split; [|exact R2]. rewrite R1, S1, <- app_assoc. unfold sessions. cbn [flat_map]. rewrite app_nil_r. reflexivity.
Qed.
Lemma off_run l : forall m, e_on (m_mon m) = Off -> uevents (mrun m l) = uevents m.
Proof.
  induction l as [|a l IH]; intros m O; [reflexivity|]. unfold mrun. cbn [fold_left]. fold (mrun (mstep m a) l).
  assert (S : uevents (mstep m a) = uevents m /\ e_on (m_mon (mstep m a)) = Off).
  { destruct a as [recv session r|uuid made accepted r|id|id|id]; try (split; [reflexivity|exact O]).
    - cbn [mstep]. unfold off. rewrite O. split; [reflexivity|exact O].
    - destruct (uevents_client m (AClient uuid made accepted r)) as (-> & ->); [intros []|]. auto. }
  destruct S as (S1 & S2). rewrite (IH _ S2). exact S1.
Qed.
Lemma bad_step m recv session r : live (m_mon m) -> uevent_bad m recv session r -> uevents (mstep m (AUevent recv session r)) = uevents m /\ e_on (m_mon (mstep m (AUevent recv session r))) = Off.
Proof.
  intros L Bd. cbn [mstep]. rewrite (live_off _ L).
  assert (X : exists l, exists z, on_uevent (m_workers m) recv session r = (l, [], z) /\ (z < 0)%Z).
  { unfold on_uevent. destruct recv; cbn [negb]; [|eexists _, _; split; [reflexivity|lia]]. destruct session as [id|]; [|eexists _, _; split; [reflexivity|lia]].
    destruct (find_worker (m_workers m) id) eqn:E; [|eexists _, _; split; [reflexivity|lia]]. apply find_worker_iff in E as (Ne & W).
    destruct Bd as [Bd|[Bd|[(i & Bd & N)|Bd]]]; try discriminate Bd; [injection Bd as <-; elim (N W)|]. unfold send. destruct (Z.ltb_spec r 0) as [_|Y]; [|lia]. eexists _, _. split; [reflexivity|exact Bd]. }
  destruct X as (l & z & -> & Lz). split; [unfold uevents; cbn [m_sent]; rewrite app_nil_r; reflexivity|]. cbn [m_mon]. apply dispatch_off, Lz.
Qed.
(* whatever happens, the source is on or off for good *)
Lemma mon_kind l : forall m, live (m_mon m) \/ e_on (m_mon m) = Off -> live (m_mon (mrun m l)) \/ e_on (m_mon (mrun m l)) = Off.
Proof.
  induction l as [|a l IH]; intros m H; [exact H|]. unfold mrun. cbn [fold_left]. apply IH. destruct a as [recv session r|uuid made accepted r|id|id|id]; try exact H.
  - cbn [mstep]. destruct (off (m_mon m)) eqn:E; [exact H|]. destruct H as [H|H]; [|unfold off in E; rewrite H in E; discriminate E]. destruct (on_uevent _ _ _ _) as [[l' out] z]. cbn [m_mon].
    destruct (Z.ltb_spec z 0) as [Lz|Lz]; [right; apply dispatch_off, Lz|left; destruct H; apply dispatch_on; assumption].
  - destruct (uevents_client m (AClient uuid made accepted r)) as (_ & ->); [intros []|]. exact H.
Qed.
Lemma uevent_theorem l : all_good started l -> uevents (mrun started l) = sessions l.
Proof. intros G. destruct (good_run l started) as (H & _); [split; reflexivity|exact G|]. rewrite H. reflexivity. Qed.
Lemma uevent_refuted l recv session r : uevent_bad (mrun started l) recv session r -> forall l', uevents (mrun started (l ++ AUevent recv session r :: l')) = uevents (mrun started l).
Proof.
  intros Bd l'. unfold mrun in *. rewrite fold_left_app. cbn [fold_left]. fold (mrun started l). fold (mrun (mstep (mrun started l) (AUevent recv session r)) l').
  destruct (mon_kind l started) as [L|O]; [left; split; reflexivity|..].
  - destruct (bad_step (mrun started l) recv session r L Bd) as (E & O). rewrite (off_run l' _ O). exact E.
  - change (mrun (mstep (mrun started l) (AUevent recv session r)) l') with (mrun (mrun started l) (AUevent recv session r :: l')). apply off_run, O.
Qed.

(* clients *)
Definition no_idle (m : main) : Prop := forall id s, In (id, s) (m_workers m) -> s <> IDLE.
Lemma set_state_in l id s i t : In (i, t) (set_state l id s) -> t = s \/ In (i, t) l.
Proof. induction l as [|[j u] l IH]; cbn [set_state]; [intros []|]. destruct (bytes_eqb j id); intros [E|H]; [injection E as <- <-; auto|right; right; exact H|right; left; exact E|]. destruct (IH H) as [->|X]; [auto|right; right; exact X]. Qed.
Lemma no_idle_find l : (forall id s, In (id, s) l -> s <> IDLE) -> idle_worker l = None.
Proof. intros H. unfold idle_worker. destruct (find _ l) as [[i s]|] eqn:E; [|reflexivity]. apply find_some in E as [E X]. cbn [snd] in X. specialize (H i s E). destruct s; try discriminate X. elim H. reflexivity. Qed.
Lemma no_idle_step m a : no_idle m -> no_idle (mstep m a).
Proof.
  intros H. assert (D1 : ASSIGNED <> IDLE) by discriminate. assert (D2 : EXITING <> IDLE) by discriminate. assert (D3 : TIMED_OUT <> IDLE) by discriminate. assert (Q : forall l id s, (forall i t, In (i, t) l -> t <> IDLE) -> s <> IDLE -> forall i t, In (i, t) (set_state l id s) -> t <> IDLE) by (intros l id s A N i t X; apply set_state_in in X as [->|X]; [exact N|exact (A i t X)]).
  destruct a as [recv session r|uuid made accepted r|id|id|id]; cbn [mstep].
  - destruct (off (m_mon m)); [exact H|]. unfold on_uevent, send. destruct recv; cbn [negb]; [|exact H]. destruct session as [id|]; [|exact H]. destruct (find_worker (m_workers m) id); [|exact H]. intros i t X. cbn [m_workers] in X. exact (Q _ _ _ H D1 i t X).
  - destruct (off (m_ifc m)); [exact H|]. unfold on_client, get_worker. rewrite (no_idle_find _ H). assert (H' : forall i t, In (i, t) (m_workers m ++ [(uuid, NEW)]) -> t <> IDLE) by (intros i t X; apply in_app_or in X as [X|[X|[]]]; [exact (H i t X)|injection X as _ <-; discriminate]).
    destruct made; [|exact H]. destruct (negb accepted); [intros i t X; exact (H' i t X)|]. unfold send. intros i t X. cbn [m_workers] in X. exact (Q _ _ _ H' D1 i t X).
  - intros i t X. exact (Q _ _ _ H D2 i t X).
  - intros i t X. exact (Q _ _ _ H D3 i t X).
  - intros i t X. cbn [m_workers] in X. apply filter_In in X as [X _]. exact (H i t X).
Qed.
Lemma client_step m uuid : live (m_ifc m) -> no_idle m -> clients (mstep m (AClient uuid true true 0)) = clients m ++ [uuid] /\ live (m_ifc (mstep m (AClient uuid true true 0))).
Proof.
  intros L H. cbn [mstep]. rewrite (live_off _ L). unfold on_client, get_worker. rewrite (no_idle_find _ H). cbn [negb]. unfold send. change (0 <? 0)%Z with false. cbv iota. split.
  - unfold clients. cbn [m_sent]. rewrite filter_app, map_app. reflexivity.
  - cbn [m_ifc]. destruct L as (M & O). apply dispatch_on; [lia|exact M|exact O].
Qed.
Lemma clients_run l : forall m, live (m_ifc m) -> no_idle m -> Forall client_good l -> clients (mrun m l) = clients m ++ uuids l /\ live (m_ifc (mrun m l)).
Proof.
  induction l as [|a l IH]; intros m L N F; [cbn; rewrite app_nil_r; auto|]. unfold mrun. cbn [fold_left]. fold (mrun (mstep m a) l).
  assert (S : clients (mstep m a) = clients m ++ uuids [a] /\ live (m_ifc (mstep m a))).
  { destruct a as [recv session r|uuid made accepted r|id|id|id]; try (cbn; rewrite app_nil_r; auto; fail).
    - destruct (clients_uevent m (AUevent recv session r)) as (-> & ->); [intros []|]. cbn. rewrite app_nil_r. auto.
    - destruct (Forall_inv F) as (-> & -> & ->). exact (client_step m uuid L N). }
  destruct S as (S1 & S2). destruct (IH (mstep m a) S2 (no_idle_step m a N) (Forall_inv_tail F)) as (R1 & R2). split; [|exact R2]. rewrite R1, S1, <- app_assoc. unfold uuids. cbn [flat_map]. rewrite app_nil_r. reflexivity.
Qed.
Lemma client_theorem l : Forall client_good l -> clients (mrun started l) = uuids l.
Proof. intros F. destruct (clients_run l started) as (H & _); [split; reflexivity|intros id s []|exact F|]. rewrite H. reflexivity. Qed.
Lemma ifc_off_run l : forall m, e_on (m_ifc m) = Off -> clients (mrun m l) = clients m.
Proof.
  induction l as [|a l IH]; intros m O; [reflexivity|]. unfold mrun. cbn [fold_left]. fold (mrun (mstep m a) l).
  assert (S : clients (mstep m a) = clients m /\ e_on (m_ifc (mstep m a)) = Off).
  { destruct a as [recv session r|uuid made accepted r|id|id|id]; try (split; [reflexivity|exact O]).
    - destruct (clients_uevent m (AUevent recv session r)) as (-> & ->); [intros []|]. auto.
    - cbn [mstep]. unfold off. rewrite O. split; [reflexivity|exact O]. }
  destruct S as (S1 & S2). rewrite (IH _ S2). exact S1.
Qed.
Lemma ifc_kind l : forall m, live (m_ifc m) \/ e_on (m_ifc m) = Off -> live (m_ifc (mrun m l)) \/ e_on (m_ifc (mrun m l)) = Off.
Proof.
  induction l as [|a l IH]; intros m H; [exact H|]. unfold mrun. cbn [fold_left]. apply IH. destruct a as [recv session r|uuid made accepted r|id|id|id]; try exact H.
  - destruct (clients_uevent m (AUevent recv session r)) as (_ & ->); [intros []|]. exact H.
  - cbn [mstep]. destruct (off (m_ifc m)) eqn:E; [exact H|]. destruct H as [H|H]; [|unfold off in E; rewrite H in E; discriminate E]. destruct (on_client _ _ _ _ _) as [[l' out] z]. cbn [m_ifc].
    destruct (Z.ltb_spec z 0) as [Lz|Lz]; [right; apply dispatch_off, Lz|left; destruct H; apply dispatch_on; assumption].
Qed.
Lemma run_no_idle l : forall m, no_idle m -> no_idle (mrun m l).
Proof. induction l as [|a l IH]; intros m H; [exact H|]. unfold mrun. cbn [fold_left]. apply IH, no_idle_step, H. Qed.
Lemma client_refuted l uuid made accepted r : made = false \/ accepted = false \/ (r < 0)%Z -> forall l', clients (mrun started (l ++ AClient uuid made accepted r :: l')) = clients (mrun started l).
Proof.
  intros Bd l'. unfold mrun. rewrite fold_left_app. fold (mrun started l). change (clients (mrun (mrun started l) (AClient uuid made accepted r :: l')) = clients (mrun started l)).
  destruct (ifc_kind l started) as [L|O]; [left; split; reflexivity| |apply ifc_off_run, O]. assert (N : no_idle (mrun started l)) by (apply run_no_idle; intros id s []).
  revert L N. generalize (mrun started l). intros m L N. unfold mrun. cbn [fold_left]. fold (mrun (mstep m (AClient uuid made accepted r)) l').
  assert (S : clients (mstep m (AClient uuid made accepted r)) = clients m /\ e_on (m_ifc (mstep m (AClient uuid made accepted r))) = Off).
  { cbn [mstep]. rewrite (live_off _ L). assert (X : exists q z, on_client (m_workers m) uuid made accepted r = (q, [], z) /\ (z < 0)%Z).
    { unfold on_client, get_worker. rewrite (no_idle_find _ N). destruct made; [|eexists _, _; split; [reflexivity|lia]]. destruct accepted; cbn [negb]; [|eexists _, _; split; [reflexivity|lia]].
      destruct Bd as [Bd|[Bd|Bd]]; [discriminate Bd..|]. unfold send. destruct (Z.ltb_spec r 0) as [_|Y]; [|lia]. eexists _, _. split; [reflexivity|lia]. }
    destruct X as (q & z & -> & Lz). split; [unfold clients; cbn [m_sent]; rewrite app_nil_r; reflexivity|]. cbn [m_ifc]. apply dispatch_off, Lz. }
  destruct S as (S1 & S2). rewrite (ifc_off_run l' _ S2). exact S1.
Qed.
Lemma client_left l uuid r : Forall client_good l -> In (uuid, NEW) (m_workers (mrun started (l ++ [AClient uuid true false r]))).
Proof.
  intros F. unfold mrun. rewrite fold_left_app. cbn [fold_left]. fold (mrun started l). destruct (clients_run l started) as (_ & L); [split; reflexivity|intros id s []|exact F|].
  assert (N : no_idle (mrun started l)) by (apply run_no_idle; intros id s []). cbn [mstep]. rewrite (live_off _ L). unfold on_client, get_worker. rewrite (no_idle_find _ N). cbn [negb m_workers]. apply in_or_app. right. left. reflexivity.
Qed.
