From Verif Require Import Base UbrKey_Model UbrKey_Spec UbrDb_Model UbrDelta_Spec UbrStack_Spec UbrScan_Model UbrScan_Spec UbrDevId_Model UbrDevId_Spec UbrDevId_Properties UbrImport_Model UbrImport_Spec UbrImport_Proofs.
Local Open Scope nat_scope.

(* C125. When the daemon starts, exactly the complete devices udev has tagged for it are recorded, beside what the saved database says:
   not processed yet, under their sequence numbers, numbers and names, and these aliases with the devices.  No other list changes, the
   lists stay in order and matching, and nothing is marked to be sent. *)
Theorem import_records_devices : forall d gen l, main_db d -> ids_good l ->
  exists d', import d gen l = Ok (d', 0%Z) /\ main_db d' /\ (forall x, indexed d x = false -> indexed d' x = false)
    /\ (forall id num dsq name, described l id num dsq name -> stored d' (ready_key id) = RDY_UNPROCESSED /\ stored d' (reserved_key id) = RES_UNPROCESSED)
    /\ forall k x, main_key k -> (forall id num dsq name, described l id num dsq name -> k <> ready_key id /\ k <> reserved_key id) ->
         (In x (members d' k) <-> In x (members d k) \/ exists id num dsq name, described l id num dsq name /\ entry id num dsq name k x).
Proof. exact import_theorem. Qed.
Print Assumptions import_records_devices.
(* A second import of the same devices changes nothing. *)
Theorem import_twice_same : forall d gen l d1 r gen', main_db d -> ids_good l -> import d gen l = Ok (d1, r) ->
  exists d2, import d1 gen' l = Ok (d2, 0%Z) /\ forall k, main_key k -> members d2 k = members d1 k.
Proof. exact again_lemma. Qed.
Print Assumptions import_twice_same.
(* A device keeps its id over a restart: the scan of its number gives the id udev has, whatever would be generated, unless the saved
   database or another device of udev has the number with another id. *)
Theorem import_keeps_ids : forall d gen l d' num v dsq name, main_db d -> ids_good l -> import d gen l = Ok (d', 0%Z) ->
  members d (alias_list (B "devno") num) = [] \/ known_as d num v ->
  described l v num dsq name -> (forall w dsq' name', described l w num dsq' name' -> w = v) -> id_ok v ->
  forall s u o dsq2 name2 junk g, sc_db s = d' -> num_s (u_dev u) = Some num -> udev_says d' num o -> length junk = 37 ->
  exists d2, set_dev_kvs s u dsq2 name2 junk g = Ok (with_db s d2, Some v, 0%Z).
Proof. exact imported_id. Qed.
Print Assumptions import_keeps_ids.
(* With another one it does not hold: the id is added to the one of the saved database, and every scan of the number writes beyond its
   buffer. *)
Theorem import_number_taken_refuted : forall d gen l d' num v w dsq name, main_db d -> ids_good l -> import d gen l = Ok (d', 0%Z) ->
  known_as d num v -> length v = 36 -> described l w num dsq name -> w <> v -> (forall id q m, described l id num q m -> length id = 36) ->
  forall s u o dsq2 name2 junk g, sc_db s = d' -> num_s (u_dev u) = Some num -> udev_says d' num o -> length junk = 37 ->
  set_dev_kvs s u dsq2 name2 junk g = UB.
Proof. exact import_twice. Qed.
Print Assumptions import_number_taken_refuted.

Definition im_disk (id : bytes) : option udev_dev := Some (UdevDev (Some id) (Some (B "5")) (Some (B "sda")) 2048 None).
Definition im_part : option udev_dev := Some (UdevDev (Some di_id2) (Some (B "5")) (Some (B "sda1")) 2049 (Some (B "1"))).
Definition im_bad : option udev_dev := Some (UdevDev (Some di_id2) None (Some (B "sdb")) 2064 None).
(* a disk, its partition, a device without a sequence number and one that is gone *)
Example import_case :
  main_db (sc_db (di_start []))
  /\ match import (sc_db (di_start [])) 1 [im_disk di_id1; None; im_bad; im_part] with
     | Ok (d, r) => r = 0%Z
       /\ members d (alias_list (B "devno") (B "8_0")) = [dev_item di_id1] /\ members d (alias_list (B "devno") (B "8_1")) = [dev_item di_id2]
       /\ members d (alias_list (B "dseq") (B "5")) = [dev_item di_id1] /\ members d (alias_list (B "dseq") (B "5-part1")) = [dev_item di_id2]
       /\ members d (alias_list (B "name") (B "sdb")) = [] /\ stored d (ready_key di_id2) = RDY_UNPROCESSED /\ indexed d (ready_key di_id2) = false
       /\ members d (in_of (dev_item di_id1)) = [alias_item (B "/") (B "devno") (B "8_0"); alias_item (B "/") (B "dseq") (B "5"); alias_item (B "/") (B "name") (B "sda")]
       /\ match set_dev_kvs (Scan d A_INIT 0 0) di_dev (B "5") (B "sda") di_junk (Some di_id2) with Ok (_, id, r) => id = Some di_id1 /\ r = 0%Z | UB => False end
       (* the same disk with another id *)
       /\ match import d 2 [im_disk di_id2] with
          | Ok (d, r) => r = 0%Z /\ set_dev_kvs (Scan d A_INIT 0 0) di_dev (B "5") (B "sda") di_junk None = UB
          | UB => False
          end
     | UB => False
     end.
Proof.
  split; [destruct (di_fresh []) as (_ & _ & _ & H); [intros k r []|exact H]|]. vm_compute. repeat split; reflexivity.
Qed.
