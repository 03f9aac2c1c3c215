From Verif Require Import Base UbrKey_Model UbrDb_Model UbrPerm_Spec UbrPerm_Proofs UbrScan_Model UbrScan_Spec Lvm_Model Lvm_Spec Lvm_Proofs Dm_Model Dm_Spec Dm_Proofs
  UbrExec_Model UbrExec_Spec UbrExec_Proofs DmProps_Model DmProps_Spec DmCookie_Model DmCookie_Spec DmCookie_Proofs Dm_Properties DmProps_Properties.
Local Open Scope nat_scope.

(* C135. A scan of a device-mapper device with a cookie lowers the semaphore of the cookie once; if not, the scan has failed. *)
Theorem dm_cookie_lowered_once : forall e dm q n export remove x x' c i, dm_device e dm q -> carries (sc_db (x_scan x)) (dp_ucmd q) n ->
  (forall s, leaves (dp_ucmd q) s (export s)) -> sem_get (dp_sems q) (sem_key n) = Some i -> sem_ctl (dp_sems q) i = true -> sem_op (dp_sems q) i = true ->
  scan_command e export remove x = Ok (x', c) ->
  exists cs, x_calls x' = x_calls x ++ cs /\ (lowered_once e dm q cs [i] \/ never_lowered dm cs /\ c = (-1)%Z).
Proof. exact once_lemma. Qed.
Print Assumptions dm_cookie_lowered_once.

(* Functions of the module for other phases lower none *)
Theorem dm_cookie_nowhere_else : forall q p s s' r l, p <> B_ACTION_CURRENT -> dm_step q p s = Ok (s', r, l) -> l = [].
Proof. exact elsewhere_lemma. Qed.
Print Assumptions dm_cookie_nowhere_else.

(* C135, as stated, is refuted: whenever a file of the device cannot be read, or the name or the state is empty, the semaphore is not
   lowered, although the semaphore is there and the event has its cookie. *)
Theorem dm_cookie_left_refuted : forall e dm q export x ou on os s, dm_device e dm q -> (forall m p f s, m <> dm -> e_fn e m p = Some f -> f s <> UB) ->
  e_prepare e (Scan (sc_db (x_scan x)) A_INIT (sc_ready (x_scan x)) (sc_reserved (x_scan x))) = Ok (s, Some (Some dm)) ->
  length (dp_buuid q) = 129 -> length (dp_bname q) = 128 -> length (dp_bsusp q) = 10 -> shows 128 (dp_uuid q) ou -> shows 127 (dp_name q) on -> shows 9 (dp_susp q) os ->
  (ou = None \/ on = None \/ on = Some [] \/ os = None \/ os = Some []) ->
  exists x' cs, scan_command e export false x = Ok (x', (-1)%Z) /\ x_calls x' = x_calls x ++ cs /\ never_lowered dm cs.
Proof. exact gone_lemma. Qed.
Print Assumptions dm_cookie_left_refuted.

(* The device 253:0 with the name my--vg-root and the cookie 0x91234, its semaphore 7, and the module 10 for it beside the block module 1 *)
Definition dk_sems : sems := Sems (fun k => if (k =? sem_key 594484)%N then Some 7 else None) (fun _ => true) (fun _ => true).
Definition dk_q (name : Z + bytes) : dm_par := DmPar dm_u false ACT_CHANGE dk_sems [] (dp_line (B "LVM-abc")) name (dp_line (B "0"))
  (repeat "x"%char 129) (repeat "y"%char 128) (repeat "z"%char 10) (fun _ s => Ok (s, 0%Z)).
Definition dk_fn (bad : nat) (name : Z + bytes) (m p : nat) : option (scan -> outcome (scan * Z)) :=
  if m =? 10 then Some (dm_fn (dk_q name) p) else if m =? 1 then Some (fun s => Ok (s, if p =? bad then (-5)%Z else 0%Z)) else None.
Definition dk_env (bad : nat) (name : Z + bytes) : env := Env [1] (dk_fn bad name) (fun s => Ok (s, Some (Some 10))) (fun _ => None) (fun s => Ok (s, 0%Z)) dm_u.
Definition dk_x : xst := Xst (Scan (dm_d 8 (B "0x91234") (B "0")) A_INIT RDY_UNDEFINED RES_UNDEFINED) None None false [].
Definition dk_line : Z + bytes := dp_line (B "my--vg-root").
Example dk_device : forall bad name, dm_device (dk_env bad name) 10 (dk_q name).
Proof.
  intros bad name. assert (H : forall (z : Z), harmless dm_u (fun s => Ok (s, z))) by (intros z s s' r E; injection E as <- _; intros k _; reflexivity).
  assert (T : forall p, still (dm_fn (dk_q name) p)) by (intros p; apply dm_still; [intros p0 s s' r E; injection E as <- _; reflexivity|intros m p0 []]).
  split; [split|].
  - intros m p f s s' r F E. cbn in F. unfold dk_fn in F. destruct (m =? 10); [injection F as <-; exact (T p _ _ _ E)|]. destruct (m =? 1); [|discriminate F]. injection F as <-. injection E as <- _. reflexivity.
  - intros s s' o E. injection E as <- _. reflexivity.
  - split; [reflexivity|]. split; [reflexivity|]. split; [intros [N|[]]; discriminate N|]. split; [intros s s' o E; injection E as <- <-; split; [intros k _; reflexivity|right; reflexivity]|].
    split; [apply H|]. split; [|split; [intros p; apply H|intros m p []]].
    intros m p f N F. cbn in F. unfold dk_fn in F. destruct (m =? 10) eqn:M; [apply Nat.eqb_eq in M; contradiction|]. destruct (m =? 1); [|discriminate F]. injection F as <-. apply H.
Qed.
Example dk_carries : carries (sc_db (x_scan dk_x)) dm_u 594484.
Proof.
  pose proof dm_text_cases as (T & _). assert (V : cookie_value 594484) by (split; reflexivity).
  destruct (dm_event_at 8 (B "0x91234") (B "0") 594484) as (C & _); [no_nul|no_nul|exact T|exact V|]. destruct (dm_prepared_at 8 (B "0x91234") (B "0")) as (P1 & P2 & _); [lia|].
  split; [exact C|]. split; [exact P1|exact P2].
Qed.
Definition dk_calls (r : outcome (xst * Z)) : option (list call * Z) := match r with Ok (x, c) => Some (x_calls x, c) | UB => None end.
(* The scan lowers it, with a block module that fails in the middle as well, and for a removed device; with no name in sysfs it does not *)
Example dk_run : option_map (fun r => (filter (lowering 10) (fst r), snd r)) (dk_calls (scan_command (dk_env 99 dk_line) (fun s => s) false dk_x)) = Some ([(10, 11, 0%Z)], 0%Z).
Proof. vm_compute. reflexivity. Qed.
Example dk_run_bad : option_map (fun r => (filter (lowering 10) (fst r), snd r)) (dk_calls (scan_command (dk_env 2 dk_line) (fun s => s) false dk_x)) = Some ([(10, 11, 0%Z)], 0%Z).
Proof. vm_compute. reflexivity. Qed.
Example dk_run_remove : option_map (fun r => (filter (lowering 10) (fst r), snd r)) (dk_calls (scan_command (dk_env 99 (inl 2%Z)) (fun s => s) true dk_x)) = Some ([(10, 11, 0%Z)], 0%Z).
Proof. vm_compute. reflexivity. Qed.
Example dk_run_gone : option_map (fun r => (filter (lowering 10) (fst r), snd r)) (dk_calls (scan_command (dk_env 99 (inl 2%Z)) (fun s => s) false dk_x)) = Some ([], (-1)%Z).
Proof. vm_compute. reflexivity. Qed.
Example dk_gone_meets : (forall m p f s, m <> 10 -> e_fn (dk_env 99 (inl 2%Z)) m p = Some f -> f s <> UB)
  /\ shows 128 (dp_line (B "LVM-abc")) (Some (B "LVM-abc")) /\ shows 127 (inl 2%Z) None /\ shows 9 (dp_line (B "0")) (Some (B "0")).
Proof.
  split; [|split; [apply dp_shows; [cbn; lia|no_nul|no_nul]|split; [exact (proj2 (proj2 (proj2 (proj2 (proj2 (proj2 (proj2 (proj2 dp_case))))))))|apply dp_shows; [cbn; lia|no_nul|no_nul]]]].
  intros m p f s N F. cbn in F. unfold dk_fn in F. destruct (m =? 10) eqn:M; [apply Nat.eqb_eq in M; contradiction|]. destruct (m =? 1); [|discriminate F]. injection F as <-. discriminate.
Qed.
Example dk_steps : match dm_step (dk_q dk_line) A_SCAN_PRE (x_scan dk_x) with
  | Ok (s, r, l) => (r, l, match dm_step (dk_q dk_line) B_ACTION_CURRENT s with Ok (_, r, l) => (r, l) | UB => ((-9)%Z, []) end) = (0%Z, [], (0%Z, [7]))
  | UB => False end.
Proof. vm_compute. reflexivity. Qed.
