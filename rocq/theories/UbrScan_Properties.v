(* Ready and reserved states of a device and phases of a scan (C60, C61, C63): src/resource/ubr.c *)
From Verif Require Import Base Kvs_Model UbrKey_Model UbrDb_Model UbrPerm_Spec UbrPerm_Proofs UbrScan_Model UbrScan_Spec UbrScan_Proofs.
Local Open Scope nat_scope.

Definition su : ucmd := Ucmd (DevCtx (Some (B "8_0")) (Some (B "0d1b"))) 12 3.
Definition public_db : db :=
  Db (fun k => if key_eqb k (B "::D:0d1b:::#RDY") then Some (Rec 9 1770 3 (B "/type/dm") [["008"; "000"; "000"; "000"]%char])
               else if key_eqb k (B "::D:0d1b:::#RES") then Some (Rec 9 1770 3 (B "/type/dm") [["003"; "000"; "000"; "000"]%char]) else None) (fun _ => false).
Definition empty_db : db := Db (fun _ => None) (fun _ => false).

(* C60, as claimed, is false: a command whose context has not read the state takes it for undefined, and a module that asks for
   "unprocessed" then resets any stored state *)
Theorem ready_reset_refuted : forall d u w p res n, may_set_ready p -> no_nul w -> stored d (ready_key (dev_id u)) = n ->
  (forall o, recs d (ready_key (dev_id u)) = Some o -> no_nul (r_owner o) /\ may_write o w) ->
  exists d', set_ready (Scan d p RDY_UNDEFINED res) u w RDY_UNPROCESSED false = Ok (Scan d' p RDY_UNPROCESSED res, 0%Z)
    /\ stored d' (ready_key (dev_id u)) = RDY_UNPROCESSED.
Proof. exact ready_reset_lemma. Qed.
Print Assumptions ready_reset_refuted.
Example ready_reset_case : stored public_db (ready_key (dev_id su)) = RDY_PUBLIC /\ may_set_ready A_INIT
  /\ exists d', set_ready (Scan public_db A_INIT RDY_UNDEFINED RES_UNDEFINED) su (B "/type/dm") RDY_UNPROCESSED false = Ok (Scan d' A_INIT RDY_UNPROCESSED RES_UNDEFINED, 0%Z)
       /\ stored d' (ready_key (dev_id su)) = RDY_UNPROCESSED.
Proof. split; [reflexivity|]. split; [left; reflexivity|]. eexists. split; reflexivity. Qed.
(* And a permitted change by a module that may not write the record of the module that set the state before reads through a null pointer *)
Theorem ready_of_other_module_refuted : forall s u w n, (n <= 8)%N -> (sc_ready s <= 8)%N -> no_nul w ->
  may_set_ready (sc_phase s) -> n <> sc_ready s -> ready_move (sc_ready s) n ->
  (exists o, recs (sc_db s) (ready_key (dev_id u)) = Some o /\ no_nul (r_owner o) /\ ~ may_write o w) -> set_ready s u w n false = UB.
Proof. intros s u w n H1 H2 H3. exact (proj2 (proj2 (proj2 (proj2 (ready_request_lemma s u w n H1 H2 H3))))). Qed.
Print Assumptions ready_of_other_module_refuted.
Example ready_of_other_module_case : set_ready (Scan public_db A_SCAN_CURRENT RDY_PUBLIC RES_USED) su (B "/type/mpath") RDY_PRIVATE false = UB
  /\ ready_move RDY_PUBLIC RDY_PRIVATE.
Proof. split; [reflexivity|]. unfold ready_move. repeat split; discriminate. Qed.
(* What holds: when the command knows the stored state (a new device, or after reading it), then during any sequence of requests each
   step leaves the stored state or is an accepted request for a permitted change in a phase that permits it *)
Theorem ready_life_cycle_partial : forall u s l s1 q s2 r, knows_ready s u -> req_steps s u l = Ok s1 -> req_step s1 u q = Ok (s2, r) ->
  stored (sc_db s2) (ready_key (dev_id u)) = stored (sc_db s1) (ready_key (dev_id u))
  \/ exists w n, q = SetReady w n /\ r = 0%Z /\ stored (sc_db s2) (ready_key (dev_id u)) = n
       /\ ready_move (stored (sc_db s1) (ready_key (dev_id u))) n /\ may_set_ready (sc_phase s1).
Proof. exact ready_cycle. Qed.
Print Assumptions ready_life_cycle_partial.
Example ready_life_cycle_case : knows_ready (Scan empty_db A_INIT RDY_UNDEFINED RES_UNDEFINED) su
  /\ exists s, req_steps (Scan empty_db A_INIT RDY_UNDEFINED RES_UNDEFINED) su
       [SetReady (B "/") RDY_UNPROCESSED; EnterPhase A_SCAN_CURRENT; SetReady (B "/type/dm") RDY_PRIVATE; KvSet (B "/type/dm") NS_DEVICE (B "RDY") (Some (B "x")) 8;
        EnterPhase A_SCAN_NEXT; SetReady (B "/type/dm") RDY_PUBLIC; SetReserved (B "/type/dm") RES_USED] = Ok s
     /\ stored (sc_db s) (ready_key (dev_id su)) = RDY_PRIVATE /\ stored (sc_db s) (reserved_key (dev_id su)) = RES_USED.
Proof. split; [reflexivity|]. eexists. split; [reflexivity|]. split; reflexivity. Qed.
(* Reading the state gives the stored one, and the command knows it from then on; the archive gives the one before *)
Theorem ready_state_read :
  (forall s u w, (sc_ready s = RDY_UNDEFINED \/ knows_ready s u) -> (forall o, recs (sc_db s) (ready_key (dev_id u)) = Some o -> state_record o) ->
     exists s', get_ready s u w 0 = Ok (s', stored (sc_db s) (ready_key (dev_id u))) /\ knows_ready s' u
       /\ sc_db s' = sc_db s /\ sc_phase s' = sc_phase s /\ sc_reserved s' = sc_reserved s)
  /\ (forall s u w, (forall o, recs (sc_db s) ("~"%char :: ready_key (dev_id u)) = Some o -> state_record o) ->
     get_ready s u w 1 = Ok (s, stored (sc_db s) ("~"%char :: ready_key (dev_id u)))).
Proof. split; [exact state_loaded_lemma|exact previous_ready_lemma]. Qed.
Print Assumptions ready_state_read.
Example ready_state_read_case : (exists o, recs public_db (ready_key (dev_id su)) = Some o /\ state_record o)
  /\ get_ready (Scan public_db A_SCAN_CURRENT RDY_UNDEFINED RES_UNDEFINED) su (B "/block/x") 0 = Ok (Scan public_db A_SCAN_CURRENT RDY_PUBLIC RES_UNDEFINED, RDY_PUBLIC)
  /\ match req_steps (Scan public_db A_SCAN_CURRENT RDY_UNDEFINED RES_UNDEFINED) su [GetReady (B "/") 0; SetReady (B "/type/dm") RDY_UNAVAILABLE] with
     | Ok s => match get_ready s su (B "/block/x") 1 with Ok (_, n) => n | UB => 99%N end | UB => 99%N end = RDY_PUBLIC.
Proof. split; [|split; reflexivity]. eexists. split; [reflexivity|]. repeat split. eexists. split; reflexivity. Qed.
(* The answer to a request *)
Theorem ready_request : forall s u w n, (n <= 8)%N -> (sc_ready s <= 8)%N -> no_nul w ->
  let k := ready_key (dev_id u) in
  (~ may_set_ready (sc_phase s) -> set_ready s u w n false = Ok (s, (- EPERM)%Z))
  /\ (may_set_ready (sc_phase s) -> n = sc_ready s -> set_ready s u w n false = Ok (s, 0%Z))
  /\ (may_set_ready (sc_phase s) -> n <> sc_ready s -> ~ ready_move (sc_ready s) n -> set_ready s u w n false = Ok (s, (- EBADRQC)%Z))
  /\ (may_set_ready (sc_phase s) -> n <> sc_ready s -> ready_move (sc_ready s) n ->
      (forall o, recs (sc_db s) k = Some o -> no_nul (r_owner o) /\ may_write o w) ->
      exists d', set_ready s u w n false = Ok (Scan d' (sc_phase s) n (sc_reserved s), 0%Z) /\ changed k w n (sc_db s) d').
Proof. intros s u w n H1 H2 H3 k. destruct (ready_request_lemma s u w n H1 H2 H3) as (A1 & A2 & A3 & A4 & _). exact (conj A1 (conj A2 (conj A3 A4))). Qed.
Print Assumptions ready_request.
Example ready_request_case : set_ready (Scan public_db A_SCAN_NEXT RDY_PUBLIC RES_USED) su (B "/type/dm") RDY_PRIVATE false = Ok (Scan public_db A_SCAN_NEXT RDY_PUBLIC RES_USED, (- EPERM)%Z)
  /\ set_ready (Scan public_db A_EXIT RDY_PUBLIC RES_USED) su (B "/type/dm") RDY_UNCONFIGURED false = Ok (Scan public_db A_EXIT RDY_PUBLIC RES_USED, (- EBADRQC)%Z)
  /\ ~ ready_move RDY_PUBLIC RDY_UNCONFIGURED /\ ready_move RDY_PUBLIC RDY_REMOVED /\ ready_move RDY_UNDEFINED RDY_UNPROCESSED.
Proof. split; [reflexivity|]. split; [reflexivity|]. unfold ready_move. split; [intros (_ & _ & H & _); discriminate (H eq_refl)|]. split; repeat split; (discriminate || reflexivity). Qed.

(* C61: the same of the reserved state *)
Theorem reserved_reset_refuted : forall d u w p rdy n, may_set_reserved p -> no_nul w -> stored d (reserved_key (dev_id u)) = n ->
  (forall o, recs d (reserved_key (dev_id u)) = Some o -> no_nul (r_owner o) /\ may_write o w) ->
  exists d', set_reserved (Scan d p rdy RES_UNDEFINED) u w RES_UNPROCESSED false = Ok (Scan d' p rdy RES_UNPROCESSED, 0%Z)
    /\ stored d' (reserved_key (dev_id u)) = RES_UNPROCESSED.
Proof. exact reserved_reset_lemma. Qed.
Print Assumptions reserved_reset_refuted.
Example reserved_reset_case : stored public_db (reserved_key (dev_id su)) = RES_USED /\ may_set_reserved A_SCAN_NEXT
  /\ exists d', set_reserved (Scan public_db A_SCAN_NEXT RDY_PUBLIC RES_UNDEFINED) su (B "/type/dm") RES_UNPROCESSED false = Ok (Scan d' A_SCAN_NEXT RDY_PUBLIC RES_UNPROCESSED, 0%Z)
       /\ stored d' (reserved_key (dev_id su)) = RES_UNPROCESSED.
Proof. split; [reflexivity|]. split; [right; left; reflexivity|]. eexists. split; reflexivity. Qed.
Theorem reserved_life_cycle_partial : forall u s l s1 q s2 r, knows_reserved s u -> req_steps s u l = Ok s1 -> req_step s1 u q = Ok (s2, r) ->
  stored (sc_db s2) (reserved_key (dev_id u)) = stored (sc_db s1) (reserved_key (dev_id u))
  \/ exists w n, q = SetReserved w n /\ r = 0%Z /\ stored (sc_db s2) (reserved_key (dev_id u)) = n
       /\ reserved_move (stored (sc_db s1) (reserved_key (dev_id u))) n /\ may_set_reserved (sc_phase s1).
Proof. exact reserved_cycle. Qed.
Print Assumptions reserved_life_cycle_partial.
Example reserved_life_cycle_case : knows_reserved (Scan empty_db A_INIT RDY_UNDEFINED RES_UNDEFINED) su
  /\ knows_reserved (Scan public_db A_SCAN_NEXT RDY_PUBLIC RES_USED) su
  /\ exists s, req_steps (Scan public_db A_SCAN_NEXT RDY_PUBLIC RES_USED) su [SetReserved (B "/type/dm/lvm") RES_FREE; SetReserved (B "/type/dm") RES_UNPROCESSED] = Ok s
     /\ stored (sc_db s) (reserved_key (dev_id su)) = RES_FREE.
Proof. split; [reflexivity|]. split; [reflexivity|]. eexists. split; reflexivity. Qed.
Theorem reserved_state_read :
  (forall s u w, (sc_reserved s = RES_UNDEFINED \/ knows_reserved s u) -> (forall o, recs (sc_db s) (reserved_key (dev_id u)) = Some o -> state_record o) ->
     exists s', get_reserved s u w 0 = Ok (s', stored (sc_db s) (reserved_key (dev_id u))) /\ knows_reserved s' u
       /\ sc_db s' = sc_db s /\ sc_phase s' = sc_phase s /\ sc_ready s' = sc_ready s)
  /\ (forall s u w, (forall o, recs (sc_db s) ("~"%char :: reserved_key (dev_id u)) = Some o -> state_record o) ->
     get_reserved s u w 1 = Ok (s, stored (sc_db s) ("~"%char :: reserved_key (dev_id u)))).
Proof. split; [exact reserved_loaded_lemma|exact previous_reserved_lemma]. Qed.
Print Assumptions reserved_state_read.
Example reserved_state_read_case : get_reserved (Scan public_db A_SCAN_NEXT RDY_UNDEFINED RES_UNDEFINED) su (B "/block/x") 0 = Ok (Scan public_db A_SCAN_NEXT RDY_UNDEFINED RES_USED, RES_USED)
  /\ get_reserved (Scan public_db A_SCAN_NEXT RDY_UNDEFINED RES_UNDEFINED) su (B "/block/x") 1 = Ok (Scan public_db A_SCAN_NEXT RDY_UNDEFINED RES_UNDEFINED, RES_UNDEFINED).
Proof. split; reflexivity. Qed.
Theorem reserved_request : forall s u w n, (n <= 4)%N -> (sc_reserved s <= 4)%N -> no_nul w ->
  let k := reserved_key (dev_id u) in
  (~ may_set_reserved (sc_phase s) -> set_reserved s u w n false = Ok (s, (- EPERM)%Z))
  /\ (may_set_reserved (sc_phase s) -> n = sc_reserved s -> set_reserved s u w n false = Ok (s, 0%Z))
  /\ (may_set_reserved (sc_phase s) -> n <> sc_reserved s -> ~ reserved_move (sc_reserved s) n -> set_reserved s u w n false = Ok (s, (- EBADRQC)%Z))
  /\ (may_set_reserved (sc_phase s) -> n <> sc_reserved s -> reserved_move (sc_reserved s) n ->
      (forall o, recs (sc_db s) k = Some o -> no_nul (r_owner o) /\ may_write o w) ->
      exists d', set_reserved s u w n false = Ok (Scan d' (sc_phase s) (sc_ready s) n, 0%Z) /\ changed k w n (sc_db s) d')
  /\ (may_set_reserved (sc_phase s) -> n <> sc_reserved s -> reserved_move (sc_reserved s) n ->
      (exists o, recs (sc_db s) k = Some o /\ no_nul (r_owner o) /\ ~ may_write o w) -> set_reserved s u w n false = UB).
Proof. exact reserved_request_lemma. Qed.
Print Assumptions reserved_request.
Example reserved_request_case : set_reserved (Scan public_db A_SCAN_PRE RDY_PUBLIC RES_USED) su (B "/type/dm") RES_FREE false = Ok (Scan public_db A_SCAN_PRE RDY_PUBLIC RES_USED, (- EPERM)%Z)
  /\ set_reserved (Scan public_db A_SCAN_NEXT RDY_PUBLIC RES_USED) su (B "/type/dm") RES_UNPROCESSED false = Ok (Scan public_db A_SCAN_NEXT RDY_PUBLIC RES_USED, (- EBADRQC)%Z)
  /\ set_reserved (Scan public_db A_SCAN_NEXT RDY_PUBLIC RES_USED) su (B "/type/mpath") RES_FREE false = UB.
Proof. repeat split. Qed.

(* C63.  ran: all phases in order when they pass; a failing first or last phase ends the stage with -1; after another failing phase
   come the error phase and the last phase of the stage, and nothing else.  The stage then returns 0, even if that last phase fails:
   "a failing exit phase ends the stage with failure" holds on the path without errors only. *)
Theorem scan_stage_partial :
  (forall exec stage remove, stage = 1 \/ stage = 2 -> ran exec (stage_phases stage remove) (cmd_exec_scan exec stage remove))
  /\ (forall exec stage remove, stage <> 1 -> stage <> 2 -> cmd_exec_scan exec stage remove = Some ([], (-1)%Z)).
Proof. split; [exact scan_lemma|exact scan_bad_stage]. Qed.
Print Assumptions scan_stage_partial.
Example scan_stage_case :
  cmd_exec_scan (fun _ p => if p =? A_SCAN_NEXT then (-22)%Z else if p =? A_SCAN_PRE then 1%Z else 0%Z) 1 false
    = Some ([A_INIT; A_SCAN_PRE; A_SCAN_CURRENT; A_SCAN_NEXT; PHASE_ERROR; A_EXIT], 0%Z)
  /\ cmd_exec_scan (fun _ p => if p =? B_EXIT then (-22)%Z else 0%Z) 2 false = Some ([B_INIT; B_ACTION_CURRENT; B_ACTION_NEXT; B_EXIT], (-1)%Z)
  /\ cmd_exec_scan (fun _ _ => 0%Z) 1 true = Some ([REMOVE_INIT; REMOVE_CURRENT; REMOVE_EXIT], 0%Z).
Proof. repeat split. Qed.
Theorem scan_exit_failure_refuted : exists exec, (forall h, exec h B_EXIT <> 0%Z /\ exec h B_EXIT <> 1%Z) /\
  cmd_exec_scan exec 2 false = Some ([B_INIT; B_ACTION_CURRENT; PHASE_ERROR; B_EXIT], 0%Z).
Proof. exists (fun _ p => if p =? B_INIT then 0%Z else (-22)%Z). split; [split; discriminate|reflexivity]. Qed.
Print Assumptions scan_exit_failure_refuted.
