From Verif Require Import Base UbrKey_Model UbrKey_Spec UbrDb_Model UbrDelta_Spec UbrStack_Spec UbrRec_Model UbrScan_Model UbrScan_Spec UbrDevId_Model UbrDevId_Spec UbrDevId_Proofs.
Local Open Scope nat_scope.

(* C95. A device with a number the database does not know gets the id udev has for it, and without one the generated id.  The device is
   recorded: not processed yet, under its sequence number, number and name, with udev told the id and the tag; no list of any other
   device or alias changes. *)
Theorem new_device_id : forall s u num o uid dsq name junk gen,
  scan_start s -> num_s (u_dev u) = Some num -> number_unknown (sc_db s) num -> udev_says (sc_db s) num o ->
  match o with Some w => uid = w | None => gen = Some uid end -> no_colon uid ->
  exists d', set_dev_kvs s u dsq name junk gen = Ok (Scan d' (sc_phase s) RDY_UNPROCESSED RES_UNPROCESSED, Some uid, 0%Z)
    /\ device_added (sc_db s) d' num dsq name uid /\ holds d' (udev_key num (B ".SID_TAGS")) (B "sid")
    /\ holds d' (udev_key num (B "SID_DEV_ID")) uid /\ (forall k, main_key k -> sorted (members d' k)).
Proof. exact new_lemma. Qed.
Print Assumptions new_device_id.
(* Without any of them the scan fails and nothing changes. *)
Theorem no_device_id : forall s u num dsq name junk,
  num_s (u_dev u) = Some num -> number_unknown (sc_db s) num -> lacks (sc_db s) (udev_key num (B "SID_DEV_ID")) ->
  set_dev_kvs s u dsq name junk None = Ok (s, None, (-1)%Z).
Proof. exact no_id_lemma. Qed.
Print Assumptions no_device_id.
(* A device with a known number keeps its id, whatever would be generated.  Only variables for udev change: the tag, and the id if udev
   has none. *)
Theorem known_device_id : forall s u num v o dsq name junk gen,
  num_s (u_dev u) = Some num -> known_as (sc_db s) num v -> id_ok v -> length junk = 37 -> udev_says (sc_db s) num o ->
  exists d', set_dev_kvs s u dsq name junk gen = Ok (with_db s d', Some v, 0%Z)
    /\ only [udev_key num (B "SID_DEV_ID"); udev_key num (B ".SID_TAGS")] (sc_db s) d' /\ holds d' (udev_key num (B ".SID_TAGS")) (B "sid")
    /\ match o with None => holds d' (udev_key num (B "SID_DEV_ID")) v
       | Some _ => recs d' (udev_key num (B "SID_DEV_ID")) = recs (sc_db s) (udev_key num (B "SID_DEV_ID")) end.
Proof. exact known_lemma. Qed.
Print Assumptions known_device_id.
(* The id given to a new device is the one of every later scan of its number, whatever devices are scanned in between. *)
Theorem device_id_kept : forall s u num o dsq name junk gen s1 v d2,
  scan_start s -> num_s (u_dev u) = Some num -> number_unknown (sc_db s) num -> udev_says (sc_db s) num o ->
  set_dev_kvs s u dsq name junk gen = Ok (s1, Some v, 0%Z) -> id_ok v -> activity (sc_db s1) d2 ->
  forall s2 u2 o2 dsq2 name2 junk2 gen2, sc_db s2 = d2 -> num_s (u_dev u2) = Some num -> udev_says d2 num o2 -> length junk2 = 37 ->
  exists d', set_dev_kvs s2 u2 dsq2 name2 junk2 gen2 = Ok (with_db s2 d', Some v, 0%Z)
    /\ only [udev_key num (B "SID_DEV_ID"); udev_key num (B ".SID_TAGS")] d2 d'.
Proof. exact id_kept_lemma. Qed.
Print Assumptions device_id_kept.
(* C95 does not hold for another device that gets a known number, as the next disk with the number of a removed one: it gets the id of
   the old device, is found neither by its sequence number nor by its name, and its module is the one of the old device, whatever the
   kernel says. *)
Theorem reused_number_refuted : forall s u num v o dsq name junk gen,
  num_s (u_dev u) = Some num -> known_as (sc_db s) num v -> id_ok v -> length junk = 37 -> udev_says (sc_db s) num o ->
  exists d', set_dev_kvs s u dsq name junk gen = Ok (with_db s d', Some v, 0%Z)
    /\ (forall cat id, recs d' (alias_list cat id) = recs (sc_db s) (alias_list cat id))
    /\ forall n lookup, holds (sc_db s) (module_key v) n -> ~ In NUL n -> get_base_mod_name (with_db s d') (with_uid u v) lookup = Ok (with_db s d', Some n).
Proof. exact reused_lemma. Qed.
Print Assumptions reused_number_refuted.
(* The id udev has is not compared: both stay different. *)
Theorem different_ids_refuted : forall s u num v w dsq name junk gen,
  num_s (u_dev u) = Some num -> known_as (sc_db s) num v -> id_ok v -> length junk = 37 ->
  holds (sc_db s) (udev_key num (B "SID_DEV_ID")) w -> ~ In NUL w ->
  exists d', set_dev_kvs s u dsq name junk gen = Ok (with_db s d', Some v, 0%Z) /\ holds d' (udev_key num (B "SID_DEV_ID")) w.
Proof. exact differ_lemma. Qed.
Print Assumptions different_ids_refuted.
(* An id from udev is not checked: with more than 36 characters it is accepted, and every later scan of the device fails. *)
Theorem long_udev_id_refuted : forall s u num w dsq name junk gen,
  scan_start s -> num_s (u_dev u) = Some num -> number_unknown (sc_db s) num ->
  holds (sc_db s) (udev_key num (B "SID_DEV_ID")) w -> ~ In NUL w -> no_colon w -> 36 < length w ->
  exists s', set_dev_kvs s u dsq name junk gen = Ok (s', Some w, 0%Z)
    /\ forall s2 u2 dsq2 name2 junk2 gen2, sc_db s2 = sc_db s' -> num_s (u_dev u2) = Some num -> length junk2 = 37 ->
       set_dev_kvs s2 u2 dsq2 name2 junk2 gen2 = Ok (s2, None, (-1)%Z).
Proof. exact unchecked_lemma. Qed.
Print Assumptions long_udev_id_refuted.

Definition di_dev : ucmd := Ucmd (DevCtx (Some (B "8_0")) None) 7 1.
Definition di_id1 : bytes := B "4f2c7d3e-6a51-4b0e-9d8c-1f2e3a4b5c6d".
Definition di_id2 : bytes := B "9b1e0c2d-3f4a-4c5b-8e7d-6a5b4c3d2e1f".
Definition di_start (l : list (bytes * rec)) : scan :=
  Scan (Db (fun k => match find (fun p => key_eqb k (fst p)) l with Some (_, r) => Some r | None => None end) (fun _ => false)) A_INIT 0 0.
Definition di_junk : bytes := repeat "x"%char 37.
Definition di_udev (v : bytes) : bytes * rec := (B "::U:8_0:::SID_DEV_ID", Rec 7 6 1 (B "/") [v ++ [NUL]]).
Lemma di_fresh l : (forall k r, In (k, r) l -> exists num c v, k = udev_key num c /\ r_data r = [v]) -> scan_start (di_start l).
Proof.
  intros H. assert (M : forall k, members (sc_db (di_start l)) k = [] \/ (exists v, members (sc_db (di_start l)) k = [v]) /\ exists num c, k = udev_key num c).
  { intros k. unfold members, di_start. cbn [sc_db recs]. destruct (find _ l) as [(k', r)|] eqn:F; [|auto]. right. apply find_some in F. destruct F as (F1 & F2). cbn [fst] in F2.
    destruct (H _ _ F1) as (num & c & v & E & D). split; [exists v; exact D|exists num, c]. rewrite <- E. unfold key_eqb in F2. destruct (list_eq_dec ascii_dec k k'); [assumption|discriminate]. }
  split; [left; reflexivity|]. do 2 (split; [reflexivity|]). split; [|split].
  - split; [|split].
    + intros k _. destruct (M k) as [->|((v & ->) & _)]; constructor; constructor.
    + intros g x (r & Hg) Hx. destruct (M (members_of g)) as [E|(_ & num & c & E)]; [rewrite E in Hx; destruct Hx|]. destruct Hg as [->| ->]; discriminate E.
    + intros uid x _ Hx. destruct (M (members_of (dev_item uid))) as [E|(_ & num & c & E)]; [rewrite E in Hx; destruct Hx|discriminate E].
  - split.
    + intros g uid (r & Hg) _. destruct (M (members_of g)) as [->|(_ & num & c & E)]; [|destruct Hg as [->| ->]; discriminate E].
      destruct (M (in_of (dev_item uid))) as [->|(_ & num & c & E)]; [cbn; tauto|discriminate E].
    + intros uid id _ _. destruct (M (members_of (dev_item uid))) as [->|(_ & num & c & E)]; [|discriminate E].
      destruct (M (in_of (dseq_item id))) as [->|(_ & num & c & E)]; [cbn; tauto|discriminate E].
  - intros k c Mk Hc. split; [|reflexivity]. unfold di_start. cbn [sc_db recs]. destruct (find _ l) as [(k', r)|] eqn:F; [|reflexivity]. apply find_some in F. destruct F as (F1 & F2). cbn [fst] in F2.
    destruct (H _ _ F1) as (num & c' & v & -> & _). unfold key_eqb in F2. destruct (list_eq_dec ascii_dec (c :: k) (udev_key num c')) as [Q|]; [|discriminate]. injection Q as -> _.
    destruct Hc as [Q|[Q|[]]]; discriminate Q.
Qed.
(* a new disk; then another disk with the same number *)
Example new_then_reused :
  scan_start (di_start []) /\
  match set_dev_kvs (di_start []) di_dev (B "5") (B "sda") di_junk (Some di_id1) with
  | Ok (s, Some id, r) =>
    id = di_id1 /\ r = 0%Z /\ members (sc_db s) (alias_list (B "name") (B "sda")) = [dev_item di_id1]
    /\ members (sc_db s) (in_of (dev_item di_id1)) = [alias_item (B "/") (B "devno") (B "8_0"); alias_item (B "/") (B "dseq") (B "5"); alias_item (B "/") (B "name") (B "sda")]
    /\ match get_base_mod_name s (with_uid di_dev id) (Ok (Some (B "sd"))) with
       | Ok (s, n) => n = Some (B "sd")
         /\ match set_dev_kvs (Scan (sc_db s) A_INIT 0 0) di_dev (B "6") (B "vdb") di_junk (Some di_id2) with
            | Ok (s, id, r) => id = Some di_id1 /\ r = 0%Z /\ members (sc_db s) (alias_list (B "dseq") (B "6")) = []
              /\ match get_base_mod_name s (with_uid di_dev di_id1) (Ok (Some (B "virtblk"))) with Ok (_, n) => n = Some (B "sd") | UB => False end
            | UB => False
            end
       | UB => False
       end
  | _ => False
  end.
Proof. split; [apply di_fresh; intros ? ? []|vm_compute; repeat split; reflexivity]. Qed.
Example udev_has_id :
  (forall v, scan_start (di_start [di_udev v])) /\
  match set_dev_kvs (di_start [di_udev di_id2]) di_dev (B "5") (B "sda") di_junk (Some di_id1) with Ok (s, id, r) => id = Some di_id2 /\ r = 0%Z | UB => False end
  /\ match set_dev_kvs (di_start [di_udev (di_id2 ++ B "x")]) di_dev (B "5") (B "sda") di_junk (Some di_id1) with
     | Ok (s, id, r) => id = Some (di_id2 ++ B "x") /\ r = 0%Z
       /\ match set_dev_kvs (Scan (sc_db s) A_INIT 0 0) di_dev (B "5") (B "sda") di_junk (Some di_id1) with Ok (_, id, r) => id = None /\ r = (-1)%Z | UB => False end
     | UB => False end.
Proof.
  split; [intros v; apply di_fresh; intros k r [Q|[]]; injection Q as <- <-; exists (B "8_0"), (B "SID_DEV_ID"), (v ++ [NUL]); split; reflexivity|].
  vm_compute. repeat split; reflexivity.
Qed.

(* C96. The module of a device is what its record says; without a record it is what the look up finds, which is then recorded, and
   nothing else changes; if nothing is found, nothing changes. *)
Theorem module_of_record : forall s u n lookup, holds (sc_db s) (module_key (dev_id u)) n -> ~ In NUL n -> get_base_mod_name s u lookup = Ok (s, Some n).
Proof. exact module_stored. Qed.
Print Assumptions module_of_record.
Theorem module_looked_up : forall s u n, lacks (sc_db s) (module_key (dev_id u)) ->
  exists d', get_base_mod_name s u (Ok (Some n)) = Ok (with_db s d', Some n)
    /\ holds d' (module_key (dev_id u)) n /\ only [module_key (dev_id u)] (sc_db s) d'.
Proof. exact module_found. Qed.
Print Assumptions module_looked_up.
Theorem module_not_found : forall s u, lacks (sc_db s) (module_key (dev_id u)) -> get_base_mod_name s u (Ok None) = Ok (s, None).
Proof. exact module_none. Qed.
Print Assumptions module_not_found.
(* The name that was found is the one of every later scan of the device, whatever the kernel says then. *)
Theorem module_kept : forall s u n s1 d2, get_base_mod_name s u (Ok (Some n)) = Ok (s1, Some n) -> lacks (sc_db s) (module_key (dev_id u)) -> ~ In NUL n ->
  activity (sc_db s1) d2 ->
  forall s2 u2 lookup, sc_db s2 = d2 -> dev_id u2 = dev_id u -> get_base_mod_name s2 u2 lookup = Ok (s2, Some n).
Proof. exact module_kept_lemma. Qed.
Print Assumptions module_kept.
Definition di_mod : ucmd := with_uid di_dev di_id1.
Example module_case :
  lacks (sc_db (di_start [])) (module_key (dev_id di_mod))
  /\ match get_base_mod_name (di_start []) di_mod (Ok (Some (B "sd"))) with
     | Ok (s, n) => n = Some (B "sd") /\ recs (sc_db s) (B "::D:4f2c7d3e-6a51-4b0e-9d8c-1f2e3a4b5c6d:::#MOD") = Some (Rec 7 246 1 (B "/") [B "sd" ++ [NUL]])
       /\ match get_base_mod_name s di_mod (Ok None) with Ok (_, n) => n = Some (B "sd") | UB => False end
     | UB => False end
  /\ activity (sc_db (di_start [])) (sc_db (di_start [])).
Proof. split; [intros r Q; discriminate Q|]. split; [vm_compute; repeat split; reflexivity|constructor]. Qed.
