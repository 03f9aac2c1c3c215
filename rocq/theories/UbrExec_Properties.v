(* The modules a scan executes (C94): src/resource/ubr.c *)
From Verif Require Import Base Kvs_Model UbrKey_Model UbrDb_Model UbrDelta_Model UbrRec_Model UbrScan_Model UbrScan_Spec UbrExec_Model UbrExec_Spec UbrExec_Proofs.
Local Open Scope nat_scope.

(* Two block modules, 1 (blkid) and 2; the type module of the device, 10 (dm), that of the layer above, 20.  Module 2 has no function for
   the first phase and fails in the second one; all others give 0. *)
Definition fine : scan -> outcome (scan * Z) := fun s => Ok (s, 0%Z).
Definition fails (r : Z) : scan -> outcome (scan * Z) := fun s => Ok (s, r).
Definition eu : ucmd := Ucmd (DevCtx (Some (B "8_0")) (Some (B "0d1b"))) 12 3.
Definition no_records : db := Db (fun _ => None) (fun _ => false).
Definition with_ready (d : db) (n : N) : db :=
  Db (fun k => if key_eqb k (B "::D:0d1b:::#RDY") then Some (Rec 9 1770 3 (B "/") [le 4 n]) else recs d k) (indexed d).
Definition ex_fn (bad_type bad_block : nat) (m p : nat) : option (scan -> outcome (scan * Z)) :=
  if (m =? 2) && (p =? A_INIT) then None
  else if (m =? 1) && (p =? bad_block) then Some (fails (-22))
  else if (m =? 10) && (p =? bad_type) then Some (fails (-5)) else Some fine.
Definition ex_env (bad_type bad_block : nat) (current : option nat) : env :=
  Env [1; 2] (ex_fn bad_type bad_block) (fun s => Ok (s, Some current)) (fun _ => Some 20) (fun s => Ok (s, 0%Z)) eu.
Definition start (n : N) : xst := Xst (Scan (with_ready no_records n) 0 RDY_UNDEFINED RES_UNPROCESSED) None None false [].
Definition calls_of (o : outcome (xst * Z)) : option (list (nat * nat) * Z) := match o with Ok (x, c) => Some (map fst (x_calls x), c) | UB => None end.

Lemma ex_keeps a b c : keeps_phase (ex_env a b c).
Proof.
  split; [|intros s s' o E; injection E as <- _; reflexivity]. intros m p f s s' r F E. cbn [ex_env e_fn] in F. unfold ex_fn in F.
  destruct ((m =? 2) && (p =? A_INIT)); [discriminate|]. destruct ((m =? 1) && (p =? b)); [|destruct ((m =? 10) && (p =? a))]; injection F as <-; injection E as <- _; reflexivity.
Qed.
Lemma ex_defined a b c : defined (ex_env a b c).
Proof.
  intros m p f s F. cbn [ex_env e_fn] in F. unfold ex_fn in F.
  destruct ((m =? 2) && (p =? A_INIT)); [discriminate|]. destruct ((m =? 1) && (p =? b)); [|destruct ((m =? 10) && (p =? a))]; injection F as <-; discriminate.
Qed.

(* C94.  A phase: the functions of the block modules in order up to the first failure, then that of the type module, with the phase of the
   command set; in the last phase of a stage the other way round and in reverse.  The result is that of the type module alone.  A phase
   is left out when the ready state does not suit it, and the first phase fails when its preparation does. *)
Theorem phase_executes : forall e p x x' r, keeps_phase e -> p <= PHASE_ERROR -> exec_phase e p x = Ok (x', r) ->
  ran_phase e p x x' r
  \/ no_calls x x' /\ r = 1%Z /\ In p [A_SCAN_CURRENT; A_SCAN_NEXT; A_SCAN_POST_CURRENT; A_SCAN_POST_NEXT]
     /\ sc_db (x_scan x') = sc_db (x_scan x) /\ x_current x' = x_current x /\ x_next x' = x_next x
  \/ no_calls x x' /\ r = (-1)%Z /\ In p [A_INIT; REMOVE_INIT]
     /\ e_prepare e (Scan (sc_db (x_scan x)) p (sc_ready (x_scan x)) (sc_reserved (x_scan x))) = Ok (x_scan x', None).
Proof.
  exact (fun e p x x' r K L E => match phase_lemma e p x x' r K L E with
    | or_introl (conj A _) => or_introl A
    | or_intror (or_introl (conj A (conj (conj F1 (conj F2 _)) (conj B (conj C (conj _ D)))))) => or_intror (or_introl (conj A (conj B (conj C (conj D (conj F1 F2))))))
    | or_intror (or_intror (conj A (conj _ (conj B (conj C D))))) => or_intror (or_intror (conj A (conj B (conj C D)))) end).
Qed.
Print Assumptions phase_executes.
Example phase_executes_case : keeps_phase (ex_env 99 1 (Some 10))
  /\ match exec_phase (ex_env 99 1 (Some 10)) A_SCAN_PRE (Xst (Scan no_records 0 RDY_PUBLIC RES_FREE) (Some 10) None true []) with
     | Ok (x, r) => x_calls x = [(1, 1, (-22)%Z); (10, 1, 0%Z)] /\ r = 0%Z | UB => False end
  /\ match exec_phase (ex_env 6 99 (Some 10)) A_EXIT (Xst (Scan no_records 0 RDY_PUBLIC RES_FREE) (Some 10) None true []) with
     | Ok (x, r) => x_calls x = [(10, 6, (-5)%Z); (2, 6, 0%Z); (1, 6, 0%Z)] /\ r = (-1)%Z | UB => False end.
Proof. split; [apply ex_keeps|]. split; vm_compute; split; reflexivity. Qed.

(* Which ready state decides: the one stored for the device *)
Theorem ready_state_gates_phases : forall e p x x' r, keeps_phase e -> p <= PHASE_ERROR -> exec_phase e p x = Ok (x', r) -> reads_ready (x_scan x) (e_ucmd e) ->
  let n := stored (sc_db (x_scan x)) (ready_key (dev_id (e_ucmd e))) in
  (~ goes_ahead p n (x_current x) -> no_calls x x' /\ r = 1%Z)
  /\ (goes_ahead p n (x_current x) -> ~ In p [A_INIT; REMOVE_INIT] -> ran_phase e p x x' r).
Proof. exact gate_lemma. Qed.
Print Assumptions ready_state_gates_phases.
Example ready_state_gates_case : reads_ready (x_scan (start RDY_UNCONFIGURED)) eu
  /\ stored (sc_db (x_scan (start RDY_UNCONFIGURED))) (ready_key (dev_id eu)) = RDY_UNCONFIGURED /\ ~ goes_ahead A_SCAN_CURRENT RDY_UNCONFIGURED (Some 10)
  /\ goes_ahead A_SCAN_CURRENT RDY_UNPROCESSED None /\ ~ goes_ahead A_SCAN_CURRENT RDY_UNPROCESSED (Some 10) /\ goes_ahead A_SCAN_NEXT RDY_PUBLIC None /\ ~ goes_ahead A_SCAN_NEXT RDY_PRIVATE None
  /\ calls_of (exec_scan (ex_env 99 99 (Some 10)) 1 false (start RDY_UNCONFIGURED)) = Some ([(1, 0); (10, 0); (1, 1); (2, 1); (10, 1); (10, 6); (2, 6); (1, 6)], 0%Z)
  /\ calls_of (exec_scan (ex_env 99 99 None) 1 false (start RDY_UNPROCESSED)) =
       Some ([(1, 0); (1, 1); (2, 1); (1, 2); (2, 2); (1, 3); (2, 3); (20, 3); (1, 4); (2, 4); (1, 5); (2, 5); (20, 5); (2, 6); (1, 6)], 0%Z).
Proof.
  split. { split; [left; reflexivity|]. intros o E. vm_compute in E. injection E as <-. repeat split. eexists. split; reflexivity. }
  split; [reflexivity|].
  split. { intros [(A & _)|(_ & A & _)]; [|discriminate]. specialize (A (or_introl eq_refl)). vm_compute in A. decompose [or] A; try discriminate. contradiction. }
  split; [right; repeat split|].
  split. { intros [(A & _)|(_ & _ & A)]; [|discriminate]. specialize (A (or_introl eq_refl)). vm_compute in A. decompose [or] A; try discriminate. contradiction. }
  split. { left. split; [|reflexivity]. intros I. vm_compute in I. decompose [or] I; try discriminate. contradiction. }
  split. { intros [(_ & A)|(A & _)]; [|discriminate]. specialize (A (or_introl eq_refl)). discriminate A. }
  split; vm_compute; reflexivity.
Qed.

(* A stage is its phases one after the other, each on the state the one before left *)
Theorem stage_executes : forall e stage remove x x' c, stage = 1 \/ stage = 2 -> exec_scan e stage remove x = Ok (x', c) -> stage_ran e (stage_phases stage remove) x x' c.
Proof. exact stage_lemma. Qed.
Print Assumptions stage_executes.
Example stage_executes_case :
  calls_of (exec_scan (ex_env 3 99 (Some 10)) 1 false (start RDY_PUBLIC)) =
    Some ([(1, 0); (10, 0); (1, 1); (2, 1); (10, 1); (1, 2); (2, 2); (10, 2); (1, 3); (2, 3); (20, 3); (1, 4); (2, 4); (10, 4); (1, 5); (2, 5); (20, 5); (10, 6); (2, 6); (1, 6)], 0%Z)
  /\ calls_of (exec_scan (ex_env 4 99 (Some 10)) 1 false (start RDY_PUBLIC)) =
    Some ([(1, 0); (10, 0); (1, 1); (2, 1); (10, 1); (1, 2); (2, 2); (10, 2); (1, 3); (2, 3); (20, 3); (1, 4); (2, 4); (10, 4); (1, 14); (2, 14); (10, 14); (20, 14); (10, 6); (2, 6); (1, 6)], 0%Z)
  /\ calls_of (exec_scan (ex_env 7 99 (Some 10)) 1 true (start RDY_PUBLIC)) = Some ([(1, 7); (2, 7); (10, 7)], (-1)%Z).
Proof. split; [|split]; vm_compute; reflexivity. Qed.

(* The last phase of the first stage leaves no state unprocessed, whatever its modules did or returned: what is still unprocessed becomes
   public and free *)
Theorem exit_settles_states : forall e x x' r, keeps_phase e -> exec_phase e A_EXIT x = Ok (x', r) ->
  sc_ready (x_scan x') <> RDY_UNPROCESSED /\ sc_reserved (x_scan x') <> RES_UNPROCESSED
  /\ exists s1, (exists cs, did e A_EXIT (Scan (sc_db (x_scan x)) A_EXIT (sc_ready (x_scan x)) (sc_reserved (x_scan x))) cs s1 /\ x_calls x' = x_calls x ++ cs)
    /\ let k := ready_key (dev_id (e_ucmd e)) in let v := reserved_key (dev_id (e_ucmd e)) in
       (reads_ready s1 (e_ucmd e) -> stored (sc_db (x_scan x')) k = if (stored (sc_db s1) k =? RDY_UNPROCESSED)%N then RDY_PUBLIC else stored (sc_db s1) k)
       /\ (knows_reserved s1 (e_ucmd e) -> stored (sc_db (x_scan x')) v = if (stored (sc_db s1) v =? RES_UNPROCESSED)%N then RES_FREE else stored (sc_db s1) v).
Proof. exact exit_lemma. Qed.
Print Assumptions exit_settles_states.
Example exit_settles_case : match exec_phase (ex_env 6 99 (Some 10)) A_EXIT (Xst (Scan (with_ready no_records RDY_UNPROCESSED) 5 RDY_UNPROCESSED RES_UNPROCESSED) (Some 10) None true []) with
  | Ok (x, r) => r = (-1)%Z /\ sc_ready (x_scan x) = RDY_PUBLIC /\ stored (sc_db (x_scan x)) (ready_key (dev_id eu)) = RDY_PUBLIC
                 /\ stored (sc_db (x_scan x)) (reserved_key (dev_id eu)) = RES_FREE | UB => False end.
Proof. vm_compute. repeat split. Qed.
(* So a device whose scan failed becomes public, and the stage reports success *)
Theorem failed_scan_becomes_public_refuted : exists e x x', keeps_phase e /\ defined e /\ exec_scan e 1 false x = Ok (x', 0%Z)
  /\ (exists c, In c (x_calls x') /\ x_current x' = Some (module c) /\ (result c < 0)%Z)
  /\ stored (sc_db (x_scan x)) (ready_key (dev_id (e_ucmd e))) = RDY_UNPROCESSED /\ stored (sc_db (x_scan x')) (ready_key (dev_id (e_ucmd e))) = RDY_PUBLIC.
Proof.
  exists (ex_env 1 99 (Some 10)), (start RDY_UNPROCESSED).
  assert (H : match exec_scan (ex_env 1 99 (Some 10)) 1 false (start RDY_UNPROCESSED) with
    | Ok (x', c) => c = 0%Z /\ nth_error (x_calls x') 4 = Some (10, 1, (-5)%Z) /\ x_current x' = Some 10 /\ stored (sc_db (x_scan x')) (ready_key (dev_id eu)) = RDY_PUBLIC
    | UB => False end) by (vm_compute; repeat split).
  destruct (exec_scan (ex_env 1 99 (Some 10)) 1 false (start RDY_UNPROCESSED)) as [[x' c]|]; [|contradiction]. destruct H as (-> & H1 & H2 & H3).
  exists x'. split; [apply ex_keeps|]. split; [apply ex_defined|]. split; [reflexivity|]. split; [|split; [reflexivity|exact H3]].
  exists (10, 1, (-5)%Z). split; [exact (nth_error_In _ _ H1)|]. split; [exact H2|reflexivity].
Qed.
Print Assumptions failed_scan_becomes_public_refuted.

(* The iterator over block modules: made in the first phase of the first stage, there while the command waits for the second, destroyed by
   the last phase of the second; with it, the second stage is defined *)
Theorem iterator_life_cycle :
  (forall e remove x x', keeps_phase e -> exec_scan e 1 remove x = Ok (x', 0%Z) -> x_iter x' = true)
  /\ (forall e remove x x' c, keeps_phase e -> exec_scan e 2 remove x = Ok (x', c) -> x_iter x = true /\ (c = 0%Z -> x_iter x' = false)
        /\ (c = (-1)%Z -> x_iter x' = false \/ exists r, exec_phase e B_INIT x = Ok (x', r) /\ ~ passed r /\ x_iter x' = true))
  /\ (forall e remove x, defined e -> x_iter x = true -> exists x' c, exec_scan e 2 remove x = Ok (x', c))
  /\ (forall e remove x, x_iter x = false -> exec_scan e 2 remove x = UB).
Proof. exact (conj (fun e remove x x' K E => stage1_iter e remove x x' 0%Z K E eq_refl) (conj stage2_iter (conj stage2_defined_lemma stage2_no_iter))). Qed.
Print Assumptions iterator_life_cycle.
Example iterator_life_cycle_case : match exec_scan (ex_env 99 99 (Some 10)) 1 false (start RDY_PUBLIC) with
  | Ok (x, c) => c = 0%Z /\ x_iter x = true /\ match exec_scan (ex_env 99 99 (Some 10)) 2 false x with Ok (y, c) => c = 0%Z /\ x_iter y = false | UB => False end
  | UB => False end.
Proof. vm_compute. repeat split. Qed.
(* But it is left behind when the type module of the device fails in the first phase of the first stage: nothing else destroys it *)
Theorem iterator_left_behind_refuted : forall e p s cur m f x, keeps_phase e -> p = A_INIT \/ p = REMOVE_INIT ->
  e_prepare e (Scan (sc_db (x_scan x)) p (sc_ready (x_scan x)) (sc_reserved (x_scan x))) = Ok (s, Some cur) ->
  cur = Some m -> defined e -> e_fn e m p = Some f -> (forall s, exists s' r, f s = Ok (s', r) /\ (r < 0)%Z) ->
  exists x', exec_scan e 1 (p =? REMOVE_INIT) x = Ok (x', (-1)%Z) /\ x_iter x' = true.
Proof. exact init_leak. Qed.
Print Assumptions iterator_left_behind_refuted.
Example iterator_left_behind_case : match exec_scan (ex_env 0 99 (Some 10)) 1 false (start RDY_PUBLIC) with Ok (x, c) => c = (-1)%Z /\ x_iter x = true | UB => False end.
Proof. vm_compute. repeat split. Qed.
