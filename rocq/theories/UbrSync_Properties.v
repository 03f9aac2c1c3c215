From Coq Require Import Permutation.
From Verif Require Import Base Kvs_Model UbrKey_Model UbrKey_Spec UbrDb_Model UbrPerm_Spec UbrDelta_Model UbrDelta_Spec UbrRec_Model UbrSync_Model UbrSync_Spec
  UbrSync_Proofs UbrSyncWork_Proofs.
Local Open Scope nat_scope.

Definition nothing : db := Db (fun _ => None) (fun _ => false).
Definition dv1 : ucmd := Ucmd (DevCtx (Some (B "8_0")) (Some (B "d1"))) 5 3.
Definition dv2 : ucmd := Ucmd (DevCtx (Some (B "8_16")) (Some (B "d2"))) 6 3.
Definition md : bytes := B "/block/x".
Definition grp : bytes := group_item_of NS_MODULE md (B "c") (B "g").
Definition is_vec (k : bytes) : bool :=
  match rev k with "B"%char :: "M"%char :: "G"%char :: "#"%char :: _ | "N"%char :: "I"%char :: "G"%char :: "#"%char :: _ => true | _ => false end.
Definition db_of (o : outcome db) : db := match o with Ok d => d | UB => nothing end.
Definition sent (o : outcome (option (list bytes * list srec * db))) : list srec := match o with Ok (Some (_, l, _)) => l | _ => [] end.

(* C55: the lists of the main store after the messages of any number of workers, whatever their order *)
Theorem workers_merge_partial vec d0 ds ls ls' : ready_store d0 -> lists_are_vectors vec -> Forall2 (worker vec d0) ds ls -> Permutation ls ls' ->
  exists d, syncs d0 ls' d /\ forall k, list_key k -> forall x,
    In x (members d k) <-> (In x (members d0 k) /\ (forall w, In w ds -> In x (members w k))) \/ (~ In x (members d0 k) /\ exists w, In w ds /\ In x (members w k)).
Proof. exact (workers_lemma vec d0 ds ls ls'). Qed.
Print Assumptions workers_merge_partial.
Theorem messages_merge d ls ls' : sane (recs d) -> Forall in_order ls -> Permutation ls ls' ->
  exists d', syncs d ls' d' /\ forall k, main_key k -> (forall r, In r (List.concat ls) -> s_key r <> k) ->
    forall x, ~ (added (List.concat ls) k x /\ removed (List.concat ls) k x) ->
    (In x (members d' k) <-> (In x (members d k) /\ ~ removed (List.concat ls) k x) \/ added (List.concat ls) k x).
Proof. exact (merge_lemma d ls ls'). Qed.
Print Assumptions messages_merge.
Theorem rounds_keep_symmetry_partial vec d d' : lists_are_vectors vec -> rounds vec d d' -> ready_store d -> symmetric d -> ready_store d' /\ symmetric d'.
Proof. exact (rounds_lemma vec d d'). Qed.
Print Assumptions rounds_keep_symmetry_partial.
Definition ops1 : list gop := [GrpAdd dv1 md NS_MODULE (B "c") (B "g")].
Definition ops2 : list gop := [GrpAdd dv2 md NS_MODULE (B "c") (B "g")].
Definition idx (uid : bytes) : list bytes := ["+"%char :: in_of (dev_item uid); "+"%char :: members_of grp].
Definition wd1 : db := db_of (gsteps nothing ops1).
Definition wd2 : db := db_of (gsteps nothing ops2).
Definition msg1 : list srec := sent (export is_vec (idx (B "d1")) wd1).
Definition msg2 : list srec := sent (export is_vec (idx (B "d2")) wd2).
Example vectors_ex : lists_are_vectors is_vec.
Proof. intros k (_ & item & [->| ->]); unfold is_vec, members_of, in_of; cbn [rev]; rewrite !rev_app_distr; repeat split. Qed.
Example nothing_ready : ready_store nothing /\ symmetric nothing.
Proof.
  split; [split; [|split; [|split]]|].
  - split; [intros; constructor|]. split; intros ? ? ? [].
  - split; [intros; constructor|]. intros k r H. discriminate H.
  - intros k c _ _. split; reflexivity.
  - reflexivity.
  - split; intros; cbn; tauto.
Qed.
Example workers_ex : Forall2 (worker is_vec nothing) [wd1; wd2] [msg1; msg2].
Proof.
  assert (G : forall ops d keys, Forall good_op ops -> Forall merging_op ops -> gsteps nothing ops = Ok d -> index_list d keys ->
    (match export is_vec keys d with Ok (Some _) => true | _ => false end) = true -> worker is_vec nothing d (sent (export is_vec keys d))).
  { intros ops d keys H1 H2 H3 H4 H5. destruct (export is_vec keys d) as [[((lines & l) & d')|]|] eqn:E; try discriminate H5. exists ops, keys, lines, d'. auto. }
  assert (Sr : forall u, sorted (idx u)).
  { intros u. constructor; [constructor; [constructor|constructor]|]. constructor; [apply Bf_eq, Bf_eq, Bf_lt; reflexivity|constructor]. }
  constructor; [|constructor; [|constructor]].
  - apply (G ops1 wd1 (idx (B "d1"))); [|repeat constructor|vm_compute; reflexivity| |vm_compute; reflexivity].
    + constructor; [|constructor]. intros [H|[H|[]]]; discriminate H.
    + apply index_list_of; [apply Sr|vm_compute; reflexivity].
  - apply (G ops2 wd2 (idx (B "d2"))); [|repeat constructor|vm_compute; reflexivity| |vm_compute; reflexivity].
    + constructor; [|constructor]. intros [H|[H|[]]]; discriminate H.
    + apply index_list_of; [apply Sr|vm_compute; reflexivity].
Qed.
Example workers_ex2 : match sync_main nothing msg2 with
  | Ok d => match sync_main d msg1 with
    | Ok d => map (members d) [members_of grp; in_of (dev_item (B "d1")); in_of (dev_item (B "d2"))]
    | UB => [] end
  | UB => [] end = [[dev_item (B "d1"); dev_item (B "d2")]; [grp]; [grp]].
Proof. vm_compute. reflexivity. Qed.
(* not so when groups are destroyed: the message of a worker that destroys two makes the main process take the bookkeeping of the
   first one's removal for that of the second (the second destroy has lost its sync flag, see UbrDelta_Model) *)
Definition grp2 : bytes := group_item_of NS_MODULE md (B "c") (B "h").
Definition in_d1 : bytes := in_of (dev_item (B "d1")).
Definition two_groups : list gop := [GrpAdd dv1 md NS_MODULE (B "c") (B "g"); GrpAdd dv1 md NS_MODULE (B "c") (B "h")].
Definition main2 : db := db_of (sync_main nothing (sent (export is_vec (map (cons "+"%char) [in_d1; members_of grp; members_of grp2]) (db_of (gsteps nothing two_groups))))).
Definition destroys : list gop := [GrpDestroy dv1 md NS_MODULE (Some (B "c")) (B "g") true 2; GrpDestroy dv1 md NS_MODULE (Some (B "c")) (B "h") true 0].
Definition gone : list bytes := map (cons "-"%char) [in_d1; members_of grp; members_of grp2].
Theorem destroyed_groups_refuted :
  Forall good_op destroys
  /\ map (members main2) [in_d1; members_of grp; members_of grp2] = [[grp; grp2]; [dev_item (B "d1")]; [dev_item (B "d1")]]
  /\ exists d, gsteps main2 destroys = Ok d /\ sorted gone /\ (forall k, In k gone -> indexed d k = true /\ wants_sync d k)
    /\ map s_key (sent (export is_vec gone d)) = gone
    /\ sync_main main2 (sent (export is_vec gone d)) = UB.
Proof.
  split; [repeat (apply Forall_cons; [intros [H|[H|[]]]; discriminate H|]); constructor|]. split; [vm_compute; reflexivity|].
  destruct (gsteps main2 destroys) as [d|] eqn:E; [|apply (f_equal (fun o => match o with Ok _ => true | UB => false end)) in E; vm_compute in E; discriminate E].
  exists d. assert (Ed : d = db_of (gsteps main2 destroys)) by (rewrite E; reflexivity). split; [reflexivity|]. rewrite Ed. clear E Ed d. split; [|split; [|split; vm_compute; reflexivity]].
  - constructor; [constructor; [constructor; constructor|constructor; [|constructor]]|constructor; [|constructor; [|constructor]]].
    + repeat first [apply Bf_lt; reflexivity|apply Bf_eq].
    + apply Bf_eq, Bf_eq, Bf_lt. reflexivity.
    + apply Bf_eq, Bf_eq, Bf_lt. reflexivity.
  - assert (W : forall k, sy (recs (db_of (gsteps main2 destroys)) k) = true -> wants_sync (db_of (gsteps main2 destroys)) k) by (intros k; apply wants_sy).
    intros k [<-|[<-|[<-|[]]]]; (split; [vm_compute; reflexivity|apply W; vm_compute; reflexivity]).
Qed.
Print Assumptions destroyed_groups_refuted.

(* C57: values of one owner, with the number of their event *)
Theorem newest_wins_partial d ls k o d' : sane (recs d) -> Forall in_order ls -> main_key k -> only_values ls k o ->
  (forall v, recs d k = Some v -> r_owner v = o) -> syncs d ls d' ->
  match recs d' k with
  | Some v => (recs d k = Some v \/ writes (List.concat ls) k v)
      /\ (forall w, recs d k = Some w \/ writes (List.concat ls) k w -> (r_seq w <= r_seq v)%N)
  | None => recs d k = None /\ forall w, ~ writes (List.concat ls) k w
  end.
Proof. exact (newest_lemma d ls k o d'). Qed.
Print Assumptions newest_wins_partial.
Theorem arrival_order_does_not_matter_partial d ls ls' k o d1 d2 : sane (recs d) -> Forall in_order ls -> main_key k -> only_values ls k o ->
  (forall v, recs d k = Some v -> r_owner v = o) ->
  (forall v w, recs d k = Some v \/ writes (List.concat ls) k v -> recs d k = Some w \/ writes (List.concat ls) k w -> r_seq v = r_seq w -> v = w) ->
  Permutation ls ls' -> syncs d ls d1 -> syncs d ls' d2 -> recs d1 k = recs d2 k.
Proof. exact (any_order_lemma d ls ls' k o d1 d2). Qed.
Print Assumptions arrival_order_does_not_matter_partial.
Theorem older_never_overwrites d l d' k o v : sane (recs d) -> in_order l -> main_key k -> (forall op r, In r l -> ~ change op k r) -> sync_main d l = Ok d' ->
  recs d k = Some o -> recs d' k = Some v -> v = o \/ (writes l k v /\ (r_seq v = 0%N \/ (r_seq o <= r_seq v)%N) /\ may_write o (r_owner v)).
Proof. exact (older_lemma d l d' k o v). Qed.
Print Assumptions older_never_overwrites.
Definition pkey : bytes := B ":USR:D:8_0:::state".
Definition val (seq : N) (s : string) : srec := Srec false pkey (Rec seq 4 1 md [B s]).
Example values_ex : only_values [[val 7 "new"]; [val 5 "old"]] pkey md /\ Forall in_order [[val 7 "new"]; [val 5 "old"]] /\ main_key pkey /\ sane (recs nothing).
Proof.
  assert (One : forall n s, in_order [val n s]).
  { intros n s. split; [exists [], [val n s]; split; [reflexivity|]; split; [constructor|]; split; [repeat constructor|]; repeat constructor; intros []|].
    constructor; [|constructor]. split; [constructor; constructor|]. intros H. repeat (destruct H as [H|H]; [discriminate H|]). destruct H. }
  split; [split|split; [constructor; [apply One|constructor; [apply One|constructor]]|split; [reflexivity|apply nothing_ready]]].
  - intros r [<-|[<-|[]]] _; (split; [intros (H & _); discriminate H|split; [reflexivity|discriminate]]).
  - intros op r [<-|[<-|[]]] (H & _); discriminate H.
Qed.
Example values_ex2 : map (fun o => match o with Ok d => recs d pkey | UB => None end)
    [let! d := sync_main nothing [val 7 "new"] in sync_main d [val 5 "old"]; let! d := sync_main nothing [val 5 "old"] in sync_main d [val 7 "new"]]
  = [Some (s_rec (val 7 "new")); Some (s_rec (val 7 "new"))].
Proof. vm_compute. reflexivity. Qed.
(* a removal leaves nothing behind, so any older value is taken afterwards *)
Theorem older_value_after_removal_refuted d r1 r2 : sane (recs d) -> main_key (s_key r1) -> s_key r2 = s_key r1 -> sorted (r_data (s_rec r2)) ->
  no_nul (r_owner (s_rec r1)) -> no_nul (r_owner (s_rec r2)) ->
  removal r1 -> accepts (recs d (s_key r1)) (r_owner (s_rec r1)) (r_seq (s_rec r1)) -> ~ removal r2 ->
  exists d1 d2, sync_main d [r1] = Ok d1 /\ recs d1 (s_key r1) = None /\ sync_main d1 [r2] = Ok d2 /\ recs d2 (s_key r1) = Some (s_rec r2).
Proof. exact (tombstone_lemma d r1 r2). Qed.
Print Assumptions older_value_after_removal_refuted.
Example removal_ex : removal (Srec false pkey (Rec 9 4 1 md [])) /\ accepts (recs nothing pkey) md 9 /\ ~ removal (val 5 "old").
Proof. split; [split; [reflexivity|discriminate]|]. split; [exact I|]. intros (H & _). discriminate H. Qed.

(* C58: each record of a message in the order of a worker has its own effect *)
Theorem records_have_their_effect_partial d l : sane (recs d) -> in_order l -> exists d', sync_main d l = Ok d' /\ effects (recs d) l (recs d') /\ sane (recs d').
Proof. exact (sync_lemma d l). Qed.
Print Assumptions records_have_their_effect_partial.
Definition chg (c : ascii) (k : bytes) (fl : N) (l : list bytes) : srec := Srec true (c :: k) (Rec 5 fl 1 (B "/") l).
Definition mixed : list srec :=
  [chg "+" (members_of grp) 16 [dev_item (B "d1")]; chg "-" (in_of (dev_item (B "d2"))) 16 [grp]; val 7 "new"; Srec false (B ":USR:D:8_0:::old") (Rec 7 4 1 md [])].
Example mixed_ex : in_order mixed.
Proof.
  split.
  - exists (firstn 2 mixed), (skipn 2 mixed). split; [reflexivity|]. split; [|split; [repeat constructor|]].
    + constructor; [|constructor; [|constructor]].
      * split; [exists OP_PLUS, (members_of grp); repeat split|split; reflexivity].
      * split; [exists OP_MINUS, (in_of (dev_item (B "d2"))); repeat split|split; reflexivity].
    + constructor; [|constructor; [intros []|constructor]]. intros [H|[]]. discriminate H.
  - repeat (apply Forall_cons; [split; [repeat constructor|]; intros H; repeat (destruct H as [H|H]; [discriminate H|]); destruct H|]). constructor.
Qed.
Example mixed_ex2 : match sync_main nothing mixed with Ok d => (members d (members_of grp), recs d pkey) | UB => ([], None) end
  = ([dev_item (B "d1")], Some (s_rec (val 7 "new"))).
Proof. vm_compute. reflexivity. Qed.
(* in another order, or with changes that empty a list or are refused, the behaviour is not defined *)
Theorem change_after_plain_record_refuted d r1 r2 l op k : main_key (s_key r1) -> removal r1 \/ ~ keeps_archive r1 -> change op k r2 -> ~ removal r2 ->
  sync_main d (r1 :: r2 :: l) = UB.
Proof. exact (plain_then_change d r1 r2 l op k). Qed.
Print Assumptions change_after_plain_record_refuted.
Theorem change_after_emptied_list_refuted d k r1 r2 l op k' : sane (recs d) -> empties (recs d) k r1 -> change op k' r2 -> ~ removal r2 ->
  sync_main d (r1 :: r2 :: l) = UB.
Proof. exact (emptied_then_change d k r1 r2 l op k'). Qed.
Print Assumptions change_after_emptied_list_refuted.
Theorem value_after_emptied_list_lost_refuted d k r1 r2 : sane (recs d) -> empties (recs d) k r1 -> main_key (s_key r2) ->
  exists d', sync_main d [r1; r2] = Ok d' /\ recs d' k = None.
Proof. exact (emptied_then_set d k r1 r2). Qed.
Print Assumptions value_after_emptied_list_lost_refuted.
Theorem refused_change_refuted d k op r l o : sane (recs d) -> change op k r -> ~ removal r -> no_nul (r_owner (s_rec r)) -> recs d k = Some o ->
  ~ may_write o (r_owner (s_rec r)) -> sync_main d (r :: l) = UB.
Proof. exact (refused_change d k op r l o). Qed.
Print Assumptions refused_change_refuted.
Example plain_change_ex : main_key (s_key (val 7 "new")) /\ ~ keeps_archive (val 7 "new")
  /\ change OP_PLUS (members_of grp) (chg "+" (members_of grp) 16 [dev_item (B "d1")]) /\ ~ removal (chg "+" (members_of grp) 16 [dev_item (B "d1")]).
Proof. split; [reflexivity|]. split; [discriminate|]. split; [repeat split|]. intros (H & _). discriminate H. Qed.
Example empties_ex : empties (recs (db_of (sync_main nothing msg1))) (members_of grp) (chg "-" (members_of grp) 0 [dev_item (B "d1")]).
Proof. split; [repeat split|]. split; [reflexivity|]. split; [reflexivity|]. split; [repeat constructor|]. split; [discriminate|]. vm_compute. auto. Qed.

(* C59: a worker's reservation is taken for a removal *)
Theorem reservation_lost_refuted dw d g w n c f l d' : let k := reservation_key n c in
  name_ok c -> N.testbit f 0 = false -> no_nul w -> (forall o, recs dw k = Some o -> no_nul (r_owner o) /\ (r_owner o = w \/ w = B "/")) ->
  sane (recs d) -> in_order l -> (forall op q, In q l -> ~ change op k q) -> sync_main d l = Ok d' ->
  exists dw' r, kv_reserve dw g w n c f true = Ok (dw', 0%Z) /\ recs dw' k = Some r /\ r_owner r = w /\ is_reserved r
    /\ (In (Srec false k (cleared r)) l -> recs d' k = None \/ (recs d' k = recs d k /\ exists o, recs d k = Some o /\ ~ may_write o w)).
Proof. exact (reservation_lost dw d g w n c f l d'). Qed.
Print Assumptions reservation_lost_refuted.
Theorem reservation_removes_own_refuted dw d g w n c f l d' : let k := reservation_key n c in
  name_ok c -> N.testbit f 0 = false -> no_nul w -> (forall o, recs dw k = Some o -> no_nul (r_owner o) /\ (r_owner o = w \/ w = B "/")) ->
  sane (recs d) -> (forall o, recs d k = Some o -> r_owner o = w) -> in_order l -> (forall op q, In q l -> ~ change op k q) -> sync_main d l = Ok d' ->
  exists dw' r, kv_reserve dw g w n c f true = Ok (dw', 0%Z) /\ recs dw' k = Some r /\ r_owner r = w /\ is_reserved r
    /\ (In (Srec false k (cleared r)) l -> recs d' k = None).
Proof. exact (reservation_takes_main dw d g w n c f l d'). Qed.
Print Assumptions reservation_removes_own_refuted.
Theorem unreserve_not_sent_refuted d g w n c : let k := reservation_key n c in
  name_ok c -> no_nul w -> (forall o, recs d k = Some o -> no_nul (r_owner o) /\ (r_owner o = w \/ w = B "/")) -> (indexed d k = true <-> wants_sync d k) ->
  exists d', kv_unreserve d g w n c true = Ok (d', 0%Z) /\ (exists r, recs d' k = Some r /\ ~ is_reserved r) /\ indexed d' k = false.
Proof. exact (unreserve_silent d g w n c). Qed.
Print Assumptions unreserve_not_sent_refuted.
Theorem reservation_kept_partial d l d' k : sane (recs d) -> in_order l -> main_key k -> (forall op q, In q l -> ~ change op k q) -> sync_main d l = Ok d' ->
  (forall r, In r l -> s_key r = k -> r_data (s_rec r) = [] -> (if s_vec r then N.testbit (r_flags (s_rec r)) 4 = true else r_flags (s_rec r) = 16%N) ->
     accepts (recs d k) (r_owner (s_rec r)) (r_seq (s_rec r)) -> recs d' k = Some (s_rec r))
  /\ ((forall r, In r l -> s_key r <> k) -> recs d' k = recs d k).
Proof. exact (reservation_kept_lemma d l d' k). Qed.
Print Assumptions reservation_kept_partial.
(* the main process reserves a name, then a worker of the same module; the worker's message is the record its store wants to send *)
Definition rkey : bytes := reservation_key NS_DEVICE (B "name").
Definition main_res : db := match kv_reserve nothing 1 md NS_DEVICE (B "name") 0 false with Ok (d, _) => d | UB => nothing end.
Definition wk_res : db := match kv_reserve nothing 1 md NS_DEVICE (B "name") 0 true with Ok (d, _) => d | UB => nothing end.
Example reservation_ex : recs main_res rkey = Some (Rec 0 22 1 md []) /\ indexed wk_res rkey = true
  /\ sent (export is_vec [rkey] wk_res) = [Srec false rkey (Rec 0 20 1 md [])]
  /\ match sync_main main_res (sent (export is_vec [rkey] wk_res)) with Ok d => recs d rkey | UB => Some (Rec 0 0 0 [] []) end = None.
Proof. vm_compute. repeat split. Qed.
Example reservation_kept_ex : match sync_main nothing [Srec false rkey (Rec 0 16 1 md [])] with Ok d => recs d rkey | UB => None end = Some (Rec 0 16 1 md []).
Proof. vm_compute. reflexivity. Qed.

(* C70: the index entry of a record is there exactly while the record has the sync flag *)
Theorem index_follows_flag_partial vec d ms d' : work vec d ms d' -> index_ok d -> index_ok d'.
Proof. exact (work_index vec d ms d'). Qed.
Print Assumptions index_follows_flag_partial.
Theorem export_sends_once vec d keys lines l d' : index_list d keys -> Forall (plain_property vec) keys -> export vec keys d = Ok (Some (lines, l, d')) ->
  NoDup (map s_key l)
  /\ (forall s, In s l <-> exists r, indexed d (s_key s) = true /\ recs d (s_key s) = Some r /\ N.testbit (r_flags r) 1 = true /\ get_ns_from_key (s_key s) <> NS_UDEV
        /\ s = Srec (vec (s_key s)) (s_key s) (cleared r))
  /\ (forall k, indexed d k = true -> wants_sync d k -> indexed d' k = false /\ ~ wants_sync d' k)
  /\ (forall c k, In c ["+"%char; "-"%char] -> main_key k -> indexed d (c :: k) = true -> wants_sync d (c :: k) -> get_ns_from_key (c :: k) <> NS_UDEV -> recs d' (c :: k) = None)
  /\ (forall k, main_key k -> indexed d k = true -> recs d' k = option_map cleared (recs d k))
  /\ (forall k, indexed d k = false -> indexed d' k = false /\ recs d' k = recs d k).
Proof. exact (export_theorem vec d keys lines l d'). Qed.
Print Assumptions export_sends_once.
Example export_ex : map (fun s => (s_vec s, s_key s, r_data (s_rec s))) msg1
  = [(true, "+"%char :: in_of (dev_item (B "d1")), [grp]); (true, "+"%char :: members_of grp, [dev_item (B "d1")])].
Proof. vm_compute. reflexivity. Qed.
Example export_ex2 : index_ok nothing /\ tracked ("+"%char :: members_of grp) /\ tracked pkey.
Proof.
  split; [intros x _; split; [discriminate|intros (r & H & _); discriminate H]|]. split.
  - split; [exists "+"%char, (members_of grp); cbn; auto|]. intros (H & _). discriminate H.
  - split; [exists ":"%char, (skipn 1 pkey); cbn; auto|]. intros (_ & item & [H|H]); apply (f_equal (@rev ascii)) in H; unfold members_of, in_of in H; rewrite rev_app_distr in H; discriminate H.
Qed.
(* a group created for synchronisation loses the flag, not the index entry, with its first member; a reservation of the main process
   already has the flag, so the worker that repeats it makes no index entry *)
Definition sync_group : db := db_of (gsteps nothing [GrpCreate dv1 md NS_MODULE 2 (Some (B "c")) (B "g"); GrpAdd dv1 md NS_MODULE (B "c") (B "g")]).
Theorem synchronised_group_not_sent_refuted : indexed sync_group (members_of grp) = true /\ ~ wants_sync sync_group (members_of grp)
  /\ ~ In (members_of grp) (map s_key (sent (export is_vec (members_of grp :: idx (B "d1")) sync_group))).
Proof.
  split; [vm_compute; reflexivity|]. split.
  - intros (r & H & B1). assert (E : match recs sync_group (members_of grp) with Some r => N.testbit (r_flags r) 1 | None => false end = false) by (vm_compute; reflexivity). rewrite H in E. congruence.
  - assert (E : map s_key (sent (export is_vec (members_of grp :: idx (B "d1")) sync_group)) = idx (B "d1")) by (vm_compute; reflexivity). rewrite E. intros [H|[H|[]]]; discriminate H.
Qed.
Print Assumptions synchronised_group_not_sent_refuted.
Theorem repeated_reservation_not_indexed_refuted d g w n c f o : name_ok c -> no_nul w -> N.testbit f 0 = false ->
  recs d (reservation_key n c) = Some o -> r_owner o = w -> N.testbit (r_flags o) 1 = true ->
  exists d', kv_reserve d g w n c f true = Ok (d', 0%Z) /\ wants_sync d' (reservation_key n c) /\ indexed d' (reservation_key n c) = indexed d (reservation_key n c).
Proof. exact (again_lemma d g w n c f o). Qed.
Print Assumptions repeated_reservation_not_indexed_refuted.
Example repeated_ex : match recs main_res rkey with Some o => N.testbit (r_flags o) 1 | None => false end = true /\ indexed main_res rkey = false.
Proof. vm_compute. split; reflexivity. Qed.
