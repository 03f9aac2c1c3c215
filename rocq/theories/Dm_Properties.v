From Verif Require Import Base UbrKey_Model UbrDb_Model UbrPerm_Spec UbrPerm_Proofs UbrScan_Model UbrScan_Spec Lvm_Spec Lvm_Proofs Dm_Model Dm_Spec Dm_Proofs.
Local Open Scope nat_scope.

(* C99. The cookie of an event is read as a number above 0 of 32 bits, in decimal, octal or hexadecimal; its halves are stored, every
   other text is refused with no change. *)
Theorem dm_cookie_read : forall d u s, reads_text d DM (cookie_var u) s -> writable d DM (base_key u) -> writable d DM (flags_key u) ->
  (forall n, cookie_text s n -> cookie_value n -> exists d', get_cookie_props d u = Ok (d', 1%Z, (n / 65536)%N) /\ cookie_stored u n d d')
  /\ ((forall n, cookie_text s n -> ~ cookie_value n) -> get_cookie_props d u = Ok (d, (-1)%Z, 0%N)).
Proof. exact cookie_lemma. Qed.
Print Assumptions dm_cookie_read.
Theorem dm_no_cookie : forall d u, lacks d (cookie_var u) -> writable d DM (flags_key u) ->
  exists d', get_cookie_props d u = Ok (d', 0%Z, 0%N) /\ no_cookie_stored u d d'.
Proof. exact no_cookie_lemma. Qed.
Print Assumptions dm_no_cookie.
(* The semaphore of that cookie, and no other, is lowered, once, when the actions for the device run; without a cookie none is. *)
Theorem dm_cookie_completed : forall d u n susp, event d u (Some n) susp -> writable d DM (base_key u) -> writable d DM (flags_key u) ->
  exists d', get_cookie_props d u = Ok (d', 1%Z, (n / 65536)%N) /\ cookie_stored u n d d'
    /\ forall s w sub, recs (sc_db s) (base_key u) = recs d' (base_key u) ->
      (forall i, sem_get w (sem_key n) = Some i -> sem_ctl w i = true -> sem_op w i = true ->
         dm_action_current s u w sub = let! (s, r) := sub s in Ok (s, if (r <? 0)%Z then (-1)%Z else 0%Z, [i]))
      /\ ((forall i, sem_get w (sem_key n) = Some i -> sem_ctl w i = false \/ sem_op w i = false) -> dm_action_current s u w sub = Ok (s, (-1)%Z, [])).
Proof. exact completed_lemma. Qed.
Print Assumptions dm_cookie_completed.
Theorem dm_nothing_completed : forall s u w sub, lacks (sc_db s) (base_key u) ->
  dm_action_current s u w sub = let! (s, r) := sub s in Ok (s, if (r <? 0)%Z then (-1)%Z else 0%Z, []).
Proof. exact uncompleted_lemma. Qed.
Print Assumptions dm_nothing_completed.

(* C100. The state of a device after an event follows from the state before, the cookie and the suspended mark alone, and no other
   record than those of the cookie and the state changes; a refused event leaves the state. *)
Theorem dm_state_after_event : forall s u cookie susp synth a, prepared s u -> event (sc_db s) u cookie susp ->
  match dm_next (stored (sc_db s) (ready_key (uid u))) cookie synth a susp with
  | None => exists s', dm_scan_pre s u synth a no_sub = Ok (s', (-1)%Z) /\ recs (sc_db s') (ready_key (uid u)) = recs (sc_db s) (ready_key (uid u))
  | Some n => exists s', dm_scan_pre s u synth a no_sub = Ok (s', 0%Z) /\ stored (sc_db s') (ready_key (uid u)) = n /\ knows_ready s' u
      /\ (forall x, ~ In x (scan_pre_keys u) -> recs (sc_db s') x = recs (sc_db s) x)
  end.
Proof. exact dm_alone_lemma. Qed.
Print Assumptions dm_state_after_event.
(* For a logical volume the submodule then adds what it knows: a volume that is not initialised is kept apart. *)
Theorem dm_lvm_state_after_event : forall s u cookie susp synth a, prepared s u -> event (sc_db s) u cookie susp ->
  match dm_next (stored (sc_db s) (ready_key (uid u))) cookie synth a susp with
  | None => exists s', dm_scan_pre s u synth a (lvm_scan_pre u) = Ok (s', (-1)%Z) /\ recs (sc_db s') (ready_key (uid u)) = recs (sc_db s) (ready_key (uid u))
  | Some n => exists s', dm_scan_pre s u synth a (lvm_scan_pre u) = Ok (s', 0%Z) /\ stored (sc_db s') (ready_key (uid u)) = lvm_next n cookie /\ knows_ready s' u
      /\ (forall x, ~ In x (scan_pre_keys u) -> recs (sc_db s') x = recs (sc_db s) x)
  end.
Proof. exact dm_lvm_lemma. Qed.
Print Assumptions dm_lvm_state_after_event.
Theorem dm_private_by_cookie : forall s u n susp a, prepared s u -> event (sc_db s) u (Some n) susp -> susp <> B "1" -> N.testbit n 19 = true -> is_change a = true ->
  ~ In (stored (sc_db s) (ready_key (uid u))) [RDY_UNDEFINED; RDY_REMOVED; RDY_UNINITIALIZED] ->
  exists s', dm_scan_pre s u false a (lvm_scan_pre u) = Ok (s', 0%Z) /\ stored (sc_db s') (ready_key (uid u)) = if N.testbit n 24 then RDY_UNINITIALIZED else RDY_PRIVATE.
Proof. exact private_lemma. Qed.
Print Assumptions dm_private_by_cookie.
(* C100 does not hold for a volume that was not initialised: an event whose cookie disables other rules makes it public. *)
Theorem dm_private_by_cookie_refuted : forall s u n susp a, prepared s u -> event (sc_db s) u (Some n) susp -> susp <> B "1" -> N.testbit n 19 = true -> N.testbit n 24 = false ->
  is_change a = true -> stored (sc_db s) (ready_key (uid u)) = RDY_UNINITIALIZED ->
  exists s', dm_scan_pre s u false a (lvm_scan_pre u) = Ok (s', 0%Z) /\ stored (sc_db s') (ready_key (uid u)) = RDY_PUBLIC.
Proof. exact not_private_lemma. Qed.
Print Assumptions dm_private_by_cookie_refuted.

(* C101. At the end of the scan every variable for udev rules is set to 1 or removed: set when its bit is in the cookie, or when the
   state of the device forbids other or disk rules; the version of the rules is set for devices that are set up. *)
Theorem dm_variables_stored : forall s u f,
  (sc_ready s = RDY_UNDEFINED \/ knows_ready s u) -> (forall o, recs (sc_db s) (ready_key (uid u)) = Some o -> state_record o) -> vars_writable (sc_db s) u ->
  let ready := stored (sc_db s) (ready_key (uid u)) in
  (f < 65536)%N -> reads (sc_db s) DM (flags_key u) (two_bytes f) ->
  exists s', dm_scan_a_exit s u = Ok (s', 0%Z) /\ vars_stored u f ready (sc_db s')
    /\ recs (sc_db s') (udev_var (Lvm_Spec.number u) vsn_var) =
       (if (RDY_UNINITIALIZED <=? ready)%N then Some (var_record u 6 (Some (B "3"))) else recs (sc_db s) (udev_var (Lvm_Spec.number u) vsn_var))
    /\ (forall k, ~ In k (map (udev_var (Lvm_Spec.number u)) (vsn_var :: rules_vars)) -> recs (sc_db s') k = recs (sc_db s) k).
Proof. exact (fun s u f K R W Hf H => proj1 (exit_lemma s u K R W) f Hf H). Qed.
Print Assumptions dm_variables_stored.
(* C101 does not hold for an event without a cookie: whatever the state of the device, no variable but the version is touched. *)
Theorem dm_variables_without_cookie_refuted : forall s u,
  (sc_ready s = RDY_UNDEFINED \/ knows_ready s u) -> (forall o, recs (sc_db s) (ready_key (uid u)) = Some o -> state_record o) -> vars_writable (sc_db s) u ->
  lacks (sc_db s) (flags_key u) ->
  exists s', dm_scan_a_exit s u = Ok (s', 0%Z) /\ (forall k, k <> udev_var (Lvm_Spec.number u) vsn_var -> recs (sc_db s') k = recs (sc_db s) k).
Proof.
  exact (fun s u K R W L => match proj2 (exit_lemma s u K R W) L with ex_intro _ s' (conj A (conj _ C)) => ex_intro _ s' (conj A C) end).
Qed.
Print Assumptions dm_variables_without_cookie_refuted.

(* C102. For a device without a stored submodule the first one that claims it is stored and started; if none does, that is stored. *)
Theorem dm_submodule_chosen : forall s u l, lacks (sc_db s) (sub_key u) -> writable (sc_db s) DM (sub_key u) ->
  (forall pre m post, l = pre ++ m :: post -> (forall x, In x pre -> sm_current x (sc_db s) = Ok false) -> sm_current m (sc_db s) = Ok true ->
     exists d', submod_init s u l = (let! (s', r) := sm_run m A_INIT (with_db s d') in Ok (s', Some m, if (r <? 0)%Z then (-1)%Z else 0%Z))
       /\ recs d' (sub_key u) = Some (Rec (u_seq u) 38 (u_gen u) DM [sm_id m ++ [NUL]]) /\ (forall k, k <> sub_key u -> recs d' k = recs (sc_db s) k))
  /\ ((forall x, In x l -> sm_current x (sc_db s) = Ok false) ->
     exists d', submod_init s u l = Ok (with_db s d', None, 0%Z) /\ recs d' (sub_key u) = Some (Rec (u_seq u) 38 (u_gen u) DM [B "none" ++ [NUL]]) /\ (forall k, k <> sub_key u -> recs d' k = recs (sc_db s) k)).
Proof. exact sub_first_lemma. Qed.
Print Assumptions dm_submodule_chosen.
(* Later the stored one is started, whatever the submodules would claim now, and nothing is stored. *)
Theorem dm_submodule_kept : forall s u l name, reads_text (sc_db s) DM (sub_key u) name ->
  (forall m, In m l -> sm_id m = name -> NoDup (map sm_id l) -> name <> B "none" ->
     submod_init s u l = let! (s', r) := sm_run m A_INIT s in Ok (s', Some m, if (r <? 0)%Z then (-1)%Z else 0%Z))
  /\ (~ In name (map sm_id l) -> submod_init s u l = Ok (s, None, 0%Z)).
Proof. exact (fun s u l name T => conj (proj1 (sub_later_lemma s u l name T)) (fun H => proj2 (sub_later_lemma s u l name T) (or_intror H))). Qed.
Print Assumptions dm_submodule_kept.
Theorem dm_submodule_kept_after_choice : forall u name s l, ~ In NUL name -> recs (sc_db s) (sub_key u) = Some (Rec (u_seq u) 38 (u_gen u) DM [name ++ [NUL]]) ->
  (forall m, In m l -> sm_id m = name -> NoDup (map sm_id l) -> name <> B "none" ->
     submod_init s u l = let! (s', r) := sm_run m A_INIT s in Ok (s', Some m, if (r <? 0)%Z then (-1)%Z else 0%Z))
  /\ ((name = B "none" \/ ~ In name (map sm_id l)) -> submod_init s u l = Ok (s, None, 0%Z)).
Proof. exact sub_kept_lemma. Qed.
Print Assumptions dm_submodule_kept_after_choice.
(* C102 does not hold for a device that none claimed at its first event: no submodule is started for it any more, though one claims it. *)
Theorem dm_submodule_found_later_refuted : forall s u l m, reads_text (sc_db s) DM (sub_key u) (B "none") -> In m l -> sm_current m (sc_db s) = Ok true ->
  submod_init s u l = Ok (s, None, 0%Z).
Proof. exact (fun s u l m T _ _ => proj2 (sub_later_lemma s u l (B "none") T) (or_introl eq_refl)). Qed.
Print Assumptions dm_submodule_found_later_refuted.
(* For the device as a part of another one the last submodule that claims it is run. *)
Theorem dm_submodule_next : forall s pre m post,
  (forall x, In x pre -> exists b, sm_next x (sc_db s) = Ok b) -> sm_next m (sc_db s) = Ok true -> (forall x, In x post -> sm_next x (sc_db s) = Ok false) ->
  dm_scan_next s (pre ++ m :: post) = let! (s', r) := sm_run m A_SCAN_NEXT s in Ok (s', Some m, if (r <? 0)%Z then (-1)%Z else 0%Z).
Proof. exact sub_next_lemma. Qed.
Print Assumptions dm_submodule_next.

(* The device 253:0 with the id U in the state ready, and an event with the cookie text c *)
Definition dm_u : ucmd := Ucmd (DevCtx (Some (B "253_0")) (Some (B "U"))) 7 3.
Definition dm_env (v : bytes) : rec := Rec 7 2016 3 OWNER_CORE [v ++ [NUL]].
Definition dm_d (ready : nat) (c susp : bytes) : db :=
  Db (put (put (put (fun _ => None) (ready_key (B "U")) (Some (Rec 6 1770 3 (B "/type/dm") [[ascii_of_nat ready; NUL; NUL; NUL]])))
     (udev_var (B "253_0") (B "DM_COOKIE")) (Some (dm_env c))) (udev_var (B "253_0") (B ".DM_SUSPENDED")) (Some (dm_env susp))) (fun _ => false).
Definition dm_s (ready : nat) (c susp : bytes) : scan := Scan (dm_d ready c susp) A_SCAN_PRE RDY_UNDEFINED RES_UNDEFINED.
(* 0x91234: the flags 9, which disable other rules, and the lower half 0x1234 *)
Example dm_text_cases :
  cookie_text (B "0x91234") 594484 /\ cookie_text (B "594484") 594484 /\ cookie_text (B "02211064") 594484 /\ cookie_text (B " +0X91234") 594484
  /\ cookie_text (B "-18446744073709551615") 1 /\ N.testbit 594484 19 = true /\ cookie_value 594484 /\ cookie_value 1.
Proof.
  assert (Dg : forall base c v, (v < base)%N -> nth_error (B "0123456789abcdef") (N.to_nat v) = Some c -> digit base c v) by (intros; split; [assumption|left; assumption]).
  assert (NU : forall base (t : bytes) (l : list N), (forall i c, nth_error t i = Some c -> exists v, nth_error l i = Some v /\ digit base c v) -> length l = length t -> t <> [] ->
     numeral base t (fold_left (fun a v => base * a + v)%N l 0%N)).
  { intros base t. induction t as [|c t IH] using rev_ind; intros l H L N; [destruct (N eq_refl)|].
    destruct l as [|x l] using rev_ind; [rewrite app_length in L; cbn in L; lia|]. clear IHl. rewrite !app_length in L. cbn in L. rewrite fold_left_app. cbn [fold_left].
    assert (D : digit base c x). { destruct (H (length t) c) as (v & Hv & D); [rewrite nth_error_app2, Nat.sub_diag by lia; reflexivity|]. rewrite nth_error_app2 in Hv by lia. replace (length t - length l) with 0 in Hv by lia. injection Hv as <-. exact D. }
    destruct t as [|c0 t].
    - destruct l as [|? ?]; [|cbn in L; lia]. cbn [fold_left app]. rewrite N.mul_0_r, N.add_0_l. apply Num_one. exact D.
    - apply Num_more; [|exact D]. apply IH; [|lia|discriminate]. intros i c' Hi. destruct (H i c') as (v & Hv & D'); [rewrite nth_error_app1; [exact Hi|apply nth_error_Some; congruence]|].
      exists v. split; [|exact D']. rewrite nth_error_app1 in Hv; [exact Hv|]. assert (i < length (c0 :: t)) by (apply nth_error_Some; congruence). lia. }
  assert (P : forall base t l n, t <> [] -> Forall2 (fun c v => (v < base)%N /\ nth_error (B "0123456789abcdef") (N.to_nat v) = Some c) t l -> fold_left (fun a v => base * a + v)%N l 0%N = n -> numeral base t n).
  { intros base t l n N F <-. apply NU; [|clear - F; induction F; cbn; congruence|exact N]. clear N NU. induction F as [|c v t l (F1 & F2) _ IH]; intros [|i] c' Hi; try discriminate Hi.
    - injection Hi as <-. exists v. split; [reflexivity|]. exact (Dg _ _ _ F1 F2).
    - exact (IH i c' Hi). }
  assert (Sp : forall t v, number_text t v -> (v < 2 ^ 64)%N -> cookie_text t v) by (intros t v T L; exists [], [], t, v; repeat split; [apply Forall_nil|exact T|exact L|left; split; [left|]; reflexivity]).
  assert (Hx : numeral 16 (B "91234") 594484) by (apply (P 16%N _ [9; 1; 2; 3; 4]%N); [discriminate|repeat constructor|reflexivity]).
  split; [apply Sp; [right; right; exists (B "91234"); split; [left; reflexivity|exact Hx]|reflexivity]|].
  split; [apply Sp; [left; split; [|discriminate]; apply (P 10%N _ [5; 9; 4; 4; 8; 4]%N); [discriminate|repeat constructor|reflexivity]|reflexivity]|].
  split; [apply Sp; [right; left; split; [|reflexivity]; apply (P 8%N _ [0; 2; 2; 1; 1; 0; 6; 4]%N); [discriminate|repeat constructor|reflexivity]|reflexivity]|].
  split; [exists (B " "), (B "+"), (B "0X91234"), 594484%N; split; [reflexivity|]; split; [repeat constructor|]; split; [right; right; exists (B "91234"); split; [right; reflexivity|exact Hx]|split; [reflexivity|left; split; [right|]; reflexivity]]|].
  split; [exists [], (B "-"), (B "18446744073709551615"), 18446744073709551615%N; split; [reflexivity|]; split; [constructor|]; split;
    [left; split; [apply (P 10%N _ [1; 8; 4; 4; 6; 7; 4; 4; 0; 7; 3; 7; 0; 9; 5; 5; 1; 6; 1; 5]%N); [discriminate|repeat constructor|vm_compute; reflexivity]|discriminate]|split; [reflexivity|right; split; reflexivity]]|].
  split; [reflexivity|]. split; split; reflexivity.
Qed.
Ltac no_nul := intros H; cbn in H; decompose [or] H; try discriminate; contradiction.
Ltac dm_read o := exists o; split; [reflexivity|]; split; [no_nul|]; split; [apply may_read_match; [no_nul|no_nul|vm_compute; reflexivity]|reflexivity].
Lemma dm_event_at ready c susp n : ~ In NUL c -> ~ In NUL susp -> cookie_text c n -> cookie_value n -> event (dm_d ready c susp) dm_u (Some n) susp.
Proof.
  intros Nc Ns T V. split.
  - exists c. split; [|split; [exact T|exact V]]. split; [exact Nc|]. dm_read (dm_env c).
  - split; [exact Ns|]. dm_read (dm_env susp).
Qed.
Lemma dm_prepared_at ready c susp : (ready <= 8)%nat -> prepared (dm_s ready c susp) dm_u.
Proof.
  intros L. assert (Wr : forall k, ~ In k [ready_key (B "U"); udev_var (B "253_0") (B "DM_COOKIE"); udev_var (B "253_0") (B ".DM_SUSPENDED")] -> writable (dm_d ready c susp) DM k).
  { intros k Hk o Ho. unfold dm_d in Ho. cbn [recs] in Ho. unfold put in Ho. cbn [In] in Hk. repeat match type of Ho with context [key_eqb ?a ?b] => destruct (key_eqb_spec a b) as [X|_]; [destruct Hk; subst k; tauto|] end. discriminate Ho. }
  assert (St : forall n, (n <= 8)%nat -> (stored (dm_d n c susp) (ready_key (uid dm_u)) <= 8)%N).
  { intros n Hn. unfold stored. change (recs (dm_d n c susp) (ready_key (uid dm_u))) with (Some (Rec 6 1770 3 (B "/type/dm") [[ascii_of_nat n; NUL; NUL; NUL]])).
    cbv iota. cbn [r_data]. do 9 (destruct n as [|n]; [vm_compute; discriminate|]). lia. }
  split; [apply Wr; intros H; cbn in H; decompose [or] H; try discriminate; contradiction|]. split; [apply Wr; intros H; cbn in H; decompose [or] H; try discriminate; contradiction|]. split; [|split; [|split; [left; reflexivity|exact (St ready L)]]].
  - intros o Ho. change (recs (sc_db (dm_s ready c susp)) (ready_key (uid dm_u))) with (Some (Rec 6 1770 3 (B "/type/dm") [[ascii_of_nat ready; NUL; NUL; NUL]])) in Ho. injection Ho as <-.
    apply (ready_record_fit DM); [left; reflexivity|reflexivity|reflexivity|]. eexists. split; reflexivity.
  - right. left. reflexivity.
Qed.
(* A public device becomes private, one that was not initialised becomes public by the same event *)
Example dm_case : prepared (dm_s 8 (B "0x91234") (B "0")) dm_u /\ event (sc_db (dm_s 8 (B "0x91234") (B "0"))) dm_u (Some 594484%N) (B "0")
  /\ prepared (dm_s 4 (B "0x91234") (B "0")) dm_u /\ event (sc_db (dm_s 4 (B "0x91234") (B "0"))) dm_u (Some 594484%N) (B "0")
  /\ dm_next 8 (Some 594484%N) false ACT_CHANGE (B "0") = Some RDY_PRIVATE /\ dm_next 8 (Some 594484%N) false ACT_ADD (B "0") = None
  /\ dm_next 2 None false ACT_ADD (B "0") = Some RDY_UNCONFIGURED /\ dm_next 3 None false ACT_CHANGE (B "1") = Some RDY_UNAVAILABLE
  /\ lvm_next RDY_PUBLIC (Some 16777217%N) = RDY_UNINITIALIZED /\ lvm_next RDY_UNINITIALIZED None = RDY_PUBLIC.
Proof.
  destruct dm_text_cases as (T & _ & _ & _ & _ & _ & V & _).
  split; [apply dm_prepared_at; lia|]. split; [apply dm_event_at; [no_nul|no_nul|exact T|exact V]|]. split; [apply dm_prepared_at; lia|]. split; [apply dm_event_at; [no_nul|no_nul|exact T|exact V]|]. repeat split.
Qed.
Definition dm_run (ready : nat) (sub : scan -> outcome (scan * Z)) : outcome (N * Z) :=
  match dm_scan_pre (dm_s ready (B "0x91234") (B "0")) dm_u false ACT_CHANGE sub with Ok (s, r) => Ok (stored (sc_db s) (ready_key (B "U")), r) | UB => UB end.
Example dm_case_run : dm_run 8 no_sub = Ok (RDY_PRIVATE, 0%Z) /\ dm_run 8 (lvm_scan_pre dm_u) = Ok (RDY_PRIVATE, 0%Z) /\ dm_run 4 (lvm_scan_pre dm_u) = Ok (RDY_PUBLIC, 0%Z)
  /\ dm_run 2 no_sub = Ok (RDY_PRIVATE, 0%Z) /\ dm_run 0 no_sub = Ok (RDY_UNDEFINED, (-1)%Z).
Proof. vm_compute. repeat split. Qed.
Example dm_completed_case : exists d, get_cookie_props (dm_d 8 (B "0x91234") (B "0")) dm_u = Ok (d, 1%Z, 9%N)
  /\ dm_action_current (Scan d A_SCAN_PRE 0 0) dm_u (Sems (fun k => if (k =? 223154740)%N then Some 5 else None) (fun _ => true) (fun _ => true)) no_sub = Ok (Scan d A_SCAN_PRE 0 0, 0%Z, [5])
  /\ sem_key 594484 = 223154740%N /\ lacks (dm_d 8 (B "1") (B "0")) (base_key dm_u).
Proof.
  pose proof (dm_cookie_completed (dm_d 8 (B "0x91234") (B "0")) dm_u 594484 (B "0") (proj1 (proj2 dm_case)) (proj1 (dm_prepared_at 8 _ _ (le_n _))) (proj1 (proj2 (dm_prepared_at 8 _ _ (le_n _))))) as (d & E & _ & C).
  exists d. split; [exact E|]. split; [|split; [reflexivity|intros o Ho; discriminate Ho]].
  rewrite (proj1 (C (Scan d A_SCAN_PRE 0 0) (Sems (fun k => if (k =? 223154740)%N then Some 5 else None) (fun _ => true) (fun _ => true)) no_sub eq_refl) 5 eq_refl eq_refl eq_refl). reflexivity.
Qed.
(* The variables of a private device after an event with the flags 0x0011 and after one without a cookie *)
Definition dm_x (ready : nat) (flags : list bytes) : scan :=
  Scan (Db (put (recs (dm_d ready (B "1") (B "0"))) (flags_key dm_u) (Some (Rec 7 75 3 DM flags))) (fun _ => false)) A_EXIT RDY_UNDEFINED RES_UNDEFINED.
Definition dm_vars (s : scan) : list (option (list bytes)) :=
  match dm_scan_a_exit s dm_u with Ok (s, _) => map (fun v => match recs (sc_db s) (udev_var (B "253_0") v) with Some r => Some (r_data r) | None => None end) (vsn_var :: rules_vars) | UB => [] end.
Example dm_variables_case :
  vars_writable (sc_db (dm_x 5 [two_bytes 17])) dm_u /\ reads (sc_db (dm_x 5 [two_bytes 17])) DM (flags_key dm_u) (two_bytes 17) /\ lacks (sc_db (dm_x 5 [])) (flags_key dm_u) /\ vars_writable (sc_db (dm_x 5 [])) dm_u
  /\ (forall o, recs (sc_db (dm_x 5 [])) (ready_key (uid dm_u)) = Some o -> state_record o)
  /\ (let one := Some [B "1" ++ [NUL]] in let no := Some [] in
      dm_vars (dm_x 5 [two_bytes 17]) = [Some [B "3" ++ [NUL]]; one; no; one; one; one] ++ repeat no 11 /\ stored (sc_db (dm_x 5 [])) (ready_key (uid dm_u)) = RDY_PRIVATE /\ dm_vars (dm_x 5 []) = Some [B "3" ++ [NUL]] :: repeat None 16).
Proof.
  assert (W : forall fl, vars_writable (sc_db (dm_x 5 fl)) dm_u) by (intros fl v Hv o Ho; cbn [In vsn_var rules_vars] in Hv; decompose [or] Hv; try contradiction; subst v; vm_compute in Ho; discriminate Ho).
  split; [apply W|]. split; [dm_read (Rec 7 75 3 DM [two_bytes 17])|]. split; [intros o Ho; change (recs (sc_db (dm_x 5 [])) (flags_key dm_u)) with (Some (Rec 7 75 3 DM [])) in Ho; injection Ho as <-; reflexivity|]. split; [apply W|]. split.
  - intros o Ho. change (recs (sc_db (dm_x 5 [])) (ready_key (uid dm_u))) with (Some (Rec 6 1770 3 (B "/type/dm") [[ascii_of_nat 5; NUL; NUL; NUL]])) in Ho. injection Ho as <-.
    apply (ready_record_fit DM); [left; reflexivity|reflexivity|reflexivity|]. eexists. split; reflexivity.
  - vm_compute. repeat split.
Qed.
(* Submodules a, b and c; b and c claim the device *)
Definition dm_sub (id : bytes) (claim : bool) : submod := Submod id (fun _ => Ok claim) (fun _ => Ok claim) (fun _ s => Ok (Scan (sc_db s) (sc_phase s) 9 0, 0%Z)).
Definition dm_subs : list submod := [dm_sub (B "a") false; dm_sub (B "b") true; dm_sub (B "c") true].
Definition dm_n (name : bytes) : scan := Scan (Db (put (fun _ => None) (sub_key dm_u) (Some (Rec 5 38 2 DM [name ++ [NUL]]))) (fun _ => false)) A_INIT RDY_UNDEFINED RES_UNDEFINED.
Example dm_submodule_case : lacks (sc_db (dm_s 8 [] [])) (sub_key dm_u) /\ writable (sc_db (dm_s 8 [] [])) DM (sub_key dm_u) /\ reads_text (sc_db (dm_n (B "c"))) DM (sub_key dm_u) (B "c")
  /\ NoDup (map sm_id dm_subs) /\ reads_text (sc_db (dm_n (B "none"))) DM (sub_key dm_u) (B "none")
  /\ (let id r := match r with Ok (_, m, r) => Some (option_map sm_id m, r) | UB => None end in
      id (submod_init (dm_s 8 [] []) dm_u dm_subs) = Some (Some (B "b"), 0%Z) /\ id (submod_init (dm_n (B "c")) dm_u dm_subs) = Some (Some (B "c"), 0%Z)
      /\ id (submod_init (dm_n (B "a")) dm_u dm_subs) = Some (Some (B "a"), 0%Z) /\ id (submod_init (dm_n (B "none")) dm_u dm_subs) = Some (None, 0%Z) /\ id (dm_scan_next (dm_s 8 [] []) dm_subs) = Some (Some (B "c"), 0%Z)).
Proof.
  split; [intros o H; discriminate H|]. split; [intros o H; discriminate H|]. split; [split; [no_nul|dm_read (Rec 5 38 2 DM [B "c" ++ [NUL]])]|]. split; [repeat constructor; intros H; cbn in H; decompose [or] H; try discriminate; contradiction|].
  split; [split; [no_nul|dm_read (Rec 5 38 2 DM [B "none" ++ [NUL]])]|]. vm_compute. repeat split.
Qed.
