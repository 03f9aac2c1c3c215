From Verif Require Import Base UbrKey_Model UbrKey_Spec UbrDb_Model UbrDelta_Spec UbrStack_Spec UbrScan_Model UbrScan_Spec UbrDevId_Model UbrDevId_Spec UbrImport_Model.
Local Open Scope nat_scope.

(* The device of the enumeration that is complete: id, number, sequence number and name *)
Definition described (l : list (option udev_dev)) (id num dsq name : bytes) : Prop :=
  exists seq n partn, In (Some (UdevDev (Some id) (Some seq) (Some name) n partn)) l /\ num = num_text n /\ dsq = dsq_text seq partn.
(* An alias of it *)
Definition alias_of (num dsq name cat al : bytes) : Prop := In (cat, al) [(B "dseq", dsq); (B "devno", num); (B "name", name)].
(* The main database: lists in order and matching, nothing to be sent *)
Definition main_db (d : db) : Prop := well_formed d /\ symmetric d /\ fresh d.
(* The devices have ids that can be part of a key; the devices with a number *)
Definition ids_good (l : list (option udev_dev)) : Prop := forall id num dsq name, described l id num dsq name -> no_colon id.
(* Lists of the device with an id under one of its aliases, and of this alias with the device *)
Definition entry (id num dsq name k x : bytes) : Prop := exists cat al, alias_of num dsq name cat al
  /\ ((k = alias_list cat al /\ x = dev_item id) \/ (k = in_of (dev_item id) /\ x = alias_item (B "/") cat al)).
