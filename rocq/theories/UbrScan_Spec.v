From Verif Require Import Base UbrKey_Model UbrDb_Model UbrPerm_Spec UbrScan_Model.
Local Open Scope nat_scope.

(* The number in the record of the state of a device: 0 (undefined) without a record *)
Definition number (b : bytes) : N :=
  match b with a :: b :: c :: d :: _ => (byteN a + 256 * byteN b + 65536 * byteN c + 16777216 * byteN d)%N | _ => 0%N end.
Definition ready_key (uid : bytes) : bytes := B "::D:" ++ uid ++ B ":::#RDY".
Definition reserved_key (uid : bytes) : bytes := B "::D:" ++ uid ++ B ":::#RES".
Definition stored (d : db) (k : bytes) : N :=
  match recs d k with Some r => match r_data r with b :: _ => number b | [] => 0%N end | None => 0%N end.

(* The phases in which the states may change *)
Definition may_set_ready (p : nat) : Prop := In p [A_INIT; A_SCAN_PRE; A_SCAN_CURRENT; A_EXIT; REMOVE_INIT; B_INIT].
Definition may_set_reserved (p : nat) : Prop := In p [A_INIT; A_SCAN_NEXT; A_EXIT; REMOVE_INIT; B_INIT].
(* Changes of state *)
Definition ready_move (s s' : N) : Prop :=
  s' <> RDY_UNDEFINED /\ (s' = RDY_UNPROCESSED -> s = RDY_UNDEFINED) /\ (s' = RDY_UNCONFIGURED -> s = RDY_UNPROCESSED) /\ (s = RDY_UNDEFINED -> s' = RDY_UNPROCESSED).
Definition reserved_move (s s' : N) : Prop := s' <> RES_UNDEFINED /\ (s' = RES_UNPROCESSED -> s = RES_UNDEFINED).
(* The command knows the stored states of its device *)
Definition dev_id (u : ucmd) : bytes := match uid_s (u_dev u) with Some i => i | None => [] end.
Definition knows_ready (s : scan) (u : ucmd) : Prop := sc_ready s = stored (sc_db s) (ready_key (dev_id u)).
Definition knows_reserved (s : scan) (u : ucmd) : Prop := sc_reserved s = stored (sc_db s) (reserved_key (dev_id u)).

(* The phases of a stage: the first and the last one are its init and exit phases *)
Definition stage_phases (stage : nat) (remove : bool) : list nat :=
  match stage, remove with
  | 1, false => [A_INIT; A_SCAN_PRE; A_SCAN_CURRENT; A_SCAN_NEXT; A_SCAN_POST_CURRENT; A_SCAN_POST_NEXT; A_EXIT]
  | 1, true => [REMOVE_INIT; REMOVE_CURRENT; REMOVE_EXIT]
  | 2, _ => [B_INIT; B_ACTION_CURRENT; B_ACTION_NEXT; B_EXIT]
  | _, _ => []
  end.
Definition passed (r : Z) : Prop := r = 0%Z \/ r = 1%Z.

(* What a stage does with the results of its phases.  exec gives the result of a phase after the phases run before it. *)
Definition ran (exec : list nat -> nat -> Z) (ps : list nat) (res : option (list nat * Z)) : Prop :=
  ((forall pre p post, ps = pre ++ p :: post -> passed (exec pre p)) -> res = Some (ps, 0%Z))
  /\ (forall pre p post, ps = pre ++ p :: post -> (forall pre1 q pre2, pre = pre1 ++ q :: pre2 -> passed (exec pre1 q)) -> ~ passed (exec pre p) ->
      (pre = [] \/ post = [] -> res = Some (pre ++ [p], (-1)%Z))
      /\ (pre <> [] -> post <> [] -> res = Some (pre ++ [p; PHASE_ERROR; last ps 0], 0%Z))).

(* The record under k now holds the state n, set by w: to be synchronised and archived, readable by all, writable by sub-modules and
   super-modules; the record before is in the archive; nothing else changed *)
Definition changed (k w : bytes) (n : N) (d d' : db) : Prop :=
  stored d' k = n /\ (forall o, recs d k = Some o -> recs d' ("~"%char :: k) = Some o) /\ (forall x, x <> k -> x <> "~"%char :: k -> recs d' x = recs d x)
  /\ exists o, recs d' k = Some o /\ r_owner o = w /\ (forall b, In b [1; 3; 5; 6; 7; 9; 10]%N <-> flag o b) /\ length (List.concat (r_data o)) = 4.
(* A record of a state as set_ready writes it: every module reads it *)
Definition state_record (o : rec) : Prop := flag o 5 /\ flag o 6 /\ flag o 7 /\ exists x, r_data o = [x] /\ length x = 4.
