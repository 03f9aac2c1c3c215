From Coq Require Import Sorted.
From Verif Require Import Base UbrKey_Model UbrKey_Spec UbrDb_Model UbrPerm_Spec UbrDelta_Spec UbrSync_Model UbrSync_Spec UbrUdev_Spec UbrUdev_Proofs.
Local Open Scope nat_scope.

(* C83. The response of a scan has one string NAME=VALUE with its NUL for each record of the udev namespace that waits for being sent and has a
   string as value that is not empty, in the order of the records, and nothing else. *)
Theorem response_lines : forall vec d keys lines l d', index_list d keys -> export vec keys d = Ok (Some (lines, l, d')) -> lines_of d keys lines.
Proof. exact response_lemma. Qed.
Print Assumptions response_lines.
(* C83. A property that a module set during the command, and that nobody changed again before the end, is in the response. *)
Theorem property_sent : forall vec d u w c s rest f d0 d1 st d2 keys lines l d3, index_ok d0 -> opt_no_colon (num_s (u_dev u)) -> good_name NS_UDEV c -> no_nul w ->
  ~ list_key (record_key u w NS_UDEV c) -> s <> [] -> ~ In NUL s ->
  work vec d0 [] d -> (forall o, recs d (record_key u w NS_UDEV c) = Some o -> no_nul (r_owner o) /\ may_write o w) ->
  kv_set d u w NS_UDEV c (Some (s ++ NUL :: rest)) f = Ok (d1, 0%Z, st) ->
  work vec d1 [] d2 -> recs d2 (record_key u w NS_UDEV c) = recs d1 (record_key u w NS_UDEV c) ->
  index_list d2 keys -> export vec keys d2 = Ok (Some (lines, l, d3)) ->
  In (c ++ B "=" ++ s ++ [NUL]) lines.
Proof. exact told_lemma. Qed.
Print Assumptions property_sent.
(* C83. The text of the response determines the properties, whatever their values: keys are C strings. *)
Theorem response_read_back : forall d keys lines d' keys' lines', Forall no_nul keys -> Forall no_nul keys' -> lines_of d keys lines -> lines_of d' keys' lines' ->
  List.concat lines = List.concat lines' -> lines = lines'.
Proof. exact read_back_lemma. Qed.
Print Assumptions response_read_back.

Definition ud_dev : ucmd := Ucmd (DevCtx (Some (B "8_0")) (Some (B "d1"))) 12 3.
Definition ud_none : db := Db (fun _ => None) (fun _ => false).
Definition ud_set (d : db) (c v : bytes) : db := match kv_set d ud_dev (B "/type/dm") NS_UDEV c (Some (v ++ [NUL])) 0 with Ok (d, _, _) => d | UB => d end.
Definition ud_key (c : string) : bytes := B "::U:8_0:::" ++ B c.
Definition ud_two : db := ud_set (ud_set ud_none (B "A") (B "x")) (B "B") (B "yz").
Definition ud_text (d : db) keys : option bytes :=
  match export (fun _ => false) keys d with Ok (Some (lines, [], _)) => Some (List.concat lines) | _ => None end.
Example response_case : ud_text ud_two [ud_key "A"; ud_key "B"] = Some (B "A=x" ++ NUL :: B "B=yz" ++ [NUL])
  /\ Forall no_nul [ud_key "A"; ud_key "B"]
  /\ index_list ud_two [ud_key "A"; ud_key "B"] /\ index_ok ud_none
  /\ record_key ud_dev (B "/type/dm") NS_UDEV (B "A") = ud_key "A" /\ ~ list_key (ud_key "A") /\ good_name NS_UDEV (B "A").
Proof.
  split; [vm_compute; reflexivity|]. split; [repeat constructor; intros H; vm_compute in H; decompose [or] H; try discriminate; contradiction|]. split; [|split; [|split; [reflexivity|split; [|split; [discriminate|split; [discriminate|cbn; congruence]]]]]].
  - split; [constructor; [constructor; constructor|constructor; [repeat first [apply Bf_lt; reflexivity|apply Bf_eq]|constructor]]|]. intros k. split.
    + intros [<-|[<-|[]]]; vm_compute; reflexivity.
    + assert (E : forall x, indexed ud_two x = key_eqb x (ud_key "B") || key_eqb x (ud_key "A")).
      { intros x. assert (F : indexed ud_two x = if key_eqb x (ud_key "B") then true else if key_eqb x (ud_key "A") then true else false) by reflexivity.
        rewrite F. destruct (key_eqb x (ud_key "B")), (key_eqb x (ud_key "A")); reflexivity. }
      rewrite E. destruct (UbrPerm_Proofs.key_eqb_spec k (ud_key "B")) as [->|]; [right; left; reflexivity|]. destruct (UbrPerm_Proofs.key_eqb_spec k (ud_key "A")) as [->|]; [left; reflexivity|discriminate].
  - intros x _. split; [discriminate|intros (r & H & _); discriminate H].
  - intros (_ & item & [H|H]); apply (f_equal (@rev ascii)) in H; unfold members_of, in_of in H; rewrite rev_app_distr in H; discriminate H.
Qed.
