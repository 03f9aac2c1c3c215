From Verif Require Import Base UbrKey_Model UbrKey_Spec UbrDb_Model UbrDelta_Spec UbrStack_Spec UbrScan_Model UbrScan_Spec UbrDevId_Model.
Local Open Scope nat_scope.

(* The records: the members of an alias of the core, the udev variable with the id and the tags, the module of a device *)
Definition alias_list (cat id : bytes) : bytes := B ":ALS:M:/:" ++ cat ++ B ":" ++ id ++ B ":#GMB".
Definition udev_key (num name : bytes) : bytes := B "::U:" ++ num ++ B ":::" ++ name.
Definition module_key (uid : bytes) : bytes := B "::D:" ++ uid ++ B ":::#MOD".
(* A record holds one string *)
Definition holds (d : db) (k v : bytes) : Prop := exists r, recs d k = Some r /\ r_data r = [v ++ [NUL]].
(* A record that is not there, or one without a value *)
Definition lacks (d : db) (k : bytes) : Prop := forall r, recs d k = Some r -> r_data r = [].
(* The device with this number is known by this id *)
Definition known_as (d : db) (num uid : bytes) : Prop := exists r, recs d (alias_list (B "devno") num) = Some r /\ r_data r = [dev_item uid].
Definition number_unknown (d : db) (num : bytes) : Prop := recs d (alias_list (B "devno") num) = None.
(* The id udev knows for the device with this number, None for none *)
Definition udev_says (d : db) (num : bytes) (o : option bytes) : Prop :=
  match o with None => lacks d (udev_key num (B "SID_DEV_ID")) | Some w => holds d (udev_key num (B "SID_DEV_ID")) w /\ ~ In NUL w end.
(* Nothing but some records is different *)
Definition only (ks : list bytes) (d d' : db) : Prop := forall k, ~ In k ks -> recs d' k = recs d k.
(* The start of a scan *)
Definition scan_start (s : scan) : Prop :=
  In (sc_phase s) [A_INIT; REMOVE_INIT; B_INIT] /\ sc_ready s = RDY_UNDEFINED /\ sc_reserved s = RES_UNDEFINED
  /\ well_formed (sc_db s) /\ symmetric (sc_db s) /\ fresh (sc_db s).
(* The records of a new device: both states, the device under its sequence number, its number and its name, these aliases with the
   device; other lists stay *)
Definition device_added (d d' : db) (num dsq name uid : bytes) : Prop :=
  stored d' (ready_key uid) = RDY_UNPROCESSED /\ stored d' (reserved_key uid) = RES_UNPROCESSED
  /\ known_as d' num uid
  /\ (forall cat id, In (cat, id) [(B "dseq", dsq); (B "devno", num); (B "name", name)] ->
        In (dev_item uid) (members d' (alias_list cat id)) /\ In (alias_item (B "/") cat id) (members d' (in_of (dev_item uid))))
  /\ (forall k x, main_key k ->
        ~ In k [ready_key uid; reserved_key uid; udev_key num (B "SID_DEV_ID"); udev_key num (B ".SID_TAGS")] ->
        (In x (members d' k) <-> In x (members d k)
           \/ (x = dev_item uid /\ exists cat id, In (cat, id) [(B "dseq", dsq); (B "devno", num); (B "name", name)] /\ k = alias_list cat id)
           \/ (k = in_of (dev_item uid) /\ exists cat id, In (cat, id) [(B "dseq", dsq); (B "devno", num); (B "name", name)]
                 /\ x = alias_item (B "/") cat id /\ ~ In (dev_item uid) (members d (alias_list cat id))))).

(* What happens to the database over time: ids are settled for any devices, new or known, and their modules looked up, at the start of
   any scans, and what a worker changed becomes the snapshot of the next one *)
Inductive activity : db -> db -> Prop :=
| Ac_none : forall d, activity d d
| Ac_device : forall s u num o dsq name junk gen s' id r d, scan_start s -> num_s (u_dev u) = Some num ->
    number_unknown (sc_db s) num \/ (exists v, known_as (sc_db s) num v /\ id_ok v) ->
    udev_says (sc_db s) num o -> (forall v, o = Some v \/ gen = Some v -> no_colon v) -> length junk = 37 ->
    set_dev_kvs s u dsq name junk gen = Ok (s', id, r) -> activity (sc_db s') d -> activity (sc_db s) d
| Ac_module : forall s u lookup s' n d, get_base_mod_name s u lookup = Ok (s', n) -> activity (sc_db s') d -> activity (sc_db s) d
| Ac_snapshot : forall d d' d'', (forall k, main_key k -> recs d' k = recs d k) -> activity d' d'' -> activity d d''.
