From Verif Require Import Base UbrKey_Model UbrDb_Model UbrDelta_Spec UbrRec_Model UbrRec_Spec UbrSync_Model UbrSync_Spec UbrGen_Model.
Local Open Scope nat_scope.

(* The iteration of a store gives each key of a record once; the main process keeps current records and archived ones *)
Definition archived_key (k : bytes) : Prop := hd_error k = Some "~"%char.
Definition keys_of (d : db) (keys : list bytes) : Prop :=
  NoDup keys /\ (forall k, recs d k <> None -> In k keys) /\ Forall (fun k => (main_key k \/ archived_key k) /\ ~ In NUL k) keys.
(* Records as the code makes them: a list of strings, or at most one value that is not empty *)
Definition well_made (vec : bool) (r : rec) : Prop :=
  good_header (r_seq r) (r_flags r) (r_gen r) (r_owner r)
  /\ if vec then Forall (fun s => ~ In NUL s) (r_data r) else r_data r = [] \/ exists x, x <> [] /\ r_data r = [x].
Definition persistent (r : rec) : Prop := N.testbit (r_flags r) 2 = true.
(* What may be saved: no persistent list of the udev namespace, all records well made, and the file is small enough *)
Definition savable (vec : bytes -> bool) (d : db) (keys : list bytes) : Prop :=
  keys_of d keys /\ (forall k r, recs d k = Some r -> well_made (vec k) r)
  /\ (forall k r, recs d k = Some r -> persistent r -> get_ns_from_key k = NS_UDEV -> vec k = false).

(* The life of the daemon: it starts without a file, works, is stopped and started again; the work changes records in any way
   but leaves the one with the number alone *)
Definition same_number (d d' : db) : Prop := recs d' (B "::G::::#DBGEN") = recs d (B "::G::::#DBGEN").
Inductive life : list N -> db -> Prop :=
| Life_first b d g : start None b = Ok (d, g) -> life [g] d
| Life_work gs d d' : life gs d -> same_number d d' -> life gs d'
| Life_again gs d vec keys file b d' g : life gs d -> savable vec d keys -> vec (B "::G::::#DBGEN") = false ->
    save vec d keys = Ok (Some file) -> (N.of_nat (length file) <= 67108864)%N ->
    start (Some file) b = Ok (d', g) -> life (g :: gs) d'.
