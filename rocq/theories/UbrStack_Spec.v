From Verif Require Import Base UbrKey_Model UbrKey_Spec UbrDb_Model UbrDelta_Spec UbrRec_Model UbrStack_Model.
Local Open Scope nat_scope.

(* A key of a member list that is not an alias by device sequence number *)
Definition other_item (x : bytes) : Prop :=
  exists dom ns part cat id, no_colon dom /\ no_colon ns /\ no_colon part /\ no_colon cat /\ no_colon id
    /\ x = B ":" ++ dom ++ B ":" ++ ns ++ B ":" ++ part ++ B ":" ++ cat ++ B ":" ++ id ++ B ":"
    /\ (dom, ns, part, cat) <> (B "ALS", B "M", B "/", B "dseq").
(* Device ids and sequence numbers as the code makes them *)
Definition id_ok (i : bytes) : Prop := no_colon i /\ ~ In NUL i /\ 0 < length i <= 36.
Definition readable (d : db) (k : bytes) : Prop := forall r, recs d k = Some r -> N.land (r_flags r) 224 = 224%N.
(* A database of the devices devs (id and sequence number): the number of each stands for the device and only for it, and the
   lists of its lower devices (by number) and its upper devices (by id) name devices that are there *)
Definition devices (d : db) (devs : list (bytes * bytes)) : Prop :=
  forall u q, In (u, q) devs ->
    id_ok u /\ id_ok q
    /\ (exists r, recs d (members_of (dseq_item q)) = Some r /\ r_data r = [dev_item u])
    /\ (exists r a b, recs d (in_of (dev_item u)) = Some r /\ r_data r = a ++ dseq_item q :: b /\ Forall other_item (a ++ b))
    /\ readable d (members_of (dev_item u)) /\ readable d (in_of (dseq_item q))
    /\ (forall x, In x (members d (members_of (dev_item u))) -> exists v w, In (v, w) devs /\ x = dseq_item w)
    /\ (forall x, In x (members d (in_of (dseq_item q))) -> exists v w, In (v, w) devs /\ x = dev_item v)
    /\ (forall v w, In (v, w) devs -> (In (dseq_item w) (members d (members_of (dev_item u))) <-> In (dev_item u) (members d (in_of (dseq_item w))))).

(* u is made of v directly, or over any number of steps *)
Definition on_top (d : db) (devs : list (bytes * bytes)) (u v : bytes) : Prop :=
  exists w, In (v, w) devs /\ In (dseq_item w) (members d (members_of (dev_item u))).
Inductive above (d : db) (devs : list (bytes * bytes)) : bytes -> bytes -> Prop :=
| Ab_one : forall u v, on_top d devs u v -> above d devs u v
| Ab_more : forall u v w, on_top d devs u v -> above d devs v w -> above d devs u w.
Definition no_cycle (d : db) (devs : list (bytes * bytes)) : Prop := forall u q, In (u, q) devs -> ~ above d devs u u.

(* The device asked about: the one of the command, or one given by a key as the queries return them *)
Definition asks_down (a : asker) (key : option bytes) (u q : bytes) : Prop :=
  key = None /\ uid_s (u_dev (a_cmd a)) = Some u \/ key = Some (dseq_item q).
Definition asks_up (a : asker) (key : option bytes) (u q : bytes) : Prop :=
  key = None /\ a_dsq a = Some q \/ key = Some (dev_item u).
(* What a query answers from enough fuel on *)
Definition answers (d : db) (owner junk : bytes) (a : asker) (m : search) (key : option bytes) (l : list bytes) : Prop :=
  exists n, forall fuel, n <= fuel -> dev_stack_get fuel d owner junk a m key = Some (Ok (0%Z, match l with [] => None | _ => Some l end)).
(* Where the id after those of ids is put: each entry takes the room of its key (the id and seven more characters) and a NUL *)
Definition place (ids : list bytes) : nat := list_sum (map (fun v => length v + 8) ids).
