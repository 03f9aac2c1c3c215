From Coq Require Import Sorted.
From Verif Require Import Base UbrKey_Model UbrKey_Spec UbrDb_Model UbrDelta_Model.
Local Open Scope nat_scope.

(* The order of strings by the values of their bytes, and lists in that order without repetition *)
Inductive before : bytes -> bytes -> Prop :=
| Bf_nil : forall y b, before [] (y :: b)
| Bf_lt : forall x a y b, (byteN x < byteN y)%N -> before (x :: a) (y :: b)
| Bf_eq : forall x a b, before a b -> before (x :: a) (x :: b).
Definition sorted (l : list bytes) : Prop := StronglySorted before l.

(* What an operation makes of an old list with a given list *)
Definition result (op : kv_op) (old new : list bytes) (x : bytes) : Prop :=
  match op with OP_SET => In x new | OP_PLUS => In x old \/ In x new | OP_MINUS => In x old /\ ~ In x new end.
Definition opt_list (o : option (list bytes)) : list bytes := match o with Some l => l | None => [] end.

(* The members listed under a key; no record lists none *)
Definition members (d : db) (k : bytes) : list bytes := match recs d k with Some r => r_data r | None => [] end.
Definition main_key (k : bytes) : Prop := hd_error k = Some ":"%char.

(* How a device, an alias by device sequence number and a group are written down as members; the record of a member list
   is this string followed by the name of the list *)
Definition dev_item (uid : bytes) : bytes := B "::D:" ++ uid ++ B ":::".
Definition dseq_item (id : bytes) : bytes := B ":ALS:M:/:dseq:" ++ id ++ B ":".
Definition group_item (g : bytes) : Prop := exists rest, g = B ":ALS:" ++ rest \/ g = B ":GRP:" ++ rest.
Definition members_of (item : bytes) : bytes := item ++ B "#GMB".
Definition in_of (item : bytes) : bytes := item ++ B "#GIN".

(* A database in which the member lists are in order and list devices (groups) and aliases by sequence number (devices) *)
Definition well_formed (d : db) : Prop :=
  (forall k, main_key k -> sorted (members d k))
  /\ (forall g x, group_item g -> In x (members d (members_of g)) -> exists uid, no_colon uid /\ x = dev_item uid)
  /\ (forall uid x, no_colon uid -> In x (members d (members_of (dev_item uid))) -> exists id, no_colon id /\ x = dseq_item id).
(* A snapshot: no deltas yet *)
Definition fresh (d : db) : Prop := forall k c, main_key k -> In c ["+"%char; "-"%char] -> recs d (c :: k) = None /\ indexed d (c :: k) = false.

(* The deltas of d are exactly what changed since d0, and all of them will be sent *)
Definition delta_exact (d0 d : db) (k : bytes) : Prop :=
  sorted (members d k)
  /\ sorted (members d ("+"%char :: k)) /\ sorted (members d ("-"%char :: k))
  /\ (forall x, In x (members d ("+"%char :: k)) <-> In x (members d k) /\ ~ In x (members d0 k))
  /\ (forall x, In x (members d ("-"%char :: k)) <-> In x (members d0 k) /\ ~ In x (members d k))
  /\ (forall c, In c ["+"%char; "-"%char] -> (indexed d (c :: k) = true <-> members d (c :: k) <> [])
        /\ (recs d (c :: k) <> None <-> members d (c :: k) <> [])).

(* Operations whose devices have ids without the separator *)
Definition good_dev (u : ucmd) : Prop := opt_no_colon (uid_s (u_dev u)).
Definition good_op (o : gop) : Prop :=
  match o with
  | AliasAdd u _ _ _ | AliasDel u _ _ _ | AliasRename u _ _ _ _ _ | GrpCreate u _ _ _ _ _ | GrpAdd u _ _ _ _ | GrpDel u _ _ _ _
  | GrpDestroy u _ _ _ _ _ _ => good_dev u
  | Deps u l => good_dev u /\ NoDup l /\ (forall s, In s l -> no_colon s)
  end.
(* A group lists a device iff the device lists the group; a device lists an alias iff the alias lists the device *)
Definition symmetric (d : db) : Prop :=
  (forall g uid, group_item g -> no_colon uid -> (In (dev_item uid) (members d (members_of g)) <-> In g (members d (in_of (dev_item uid)))))
  /\ (forall uid id, no_colon uid -> no_colon id ->
        (In (dseq_item id) (members d (members_of (dev_item uid))) <-> In (dev_item uid) (members d (in_of (dseq_item id))))).

(* How an alias and a group of a module are written down *)
Definition alias_item (owner cat id : bytes) : bytes := B ":ALS:M:" ++ owner ++ B ":" ++ cat ++ B ":" ++ id ++ B ":".
Definition group_item_of (ns : kv_ns) (part cat id : bytes) : bytes :=
  B ":GRP:" ++ ns_text ns ++ B ":" ++ part ++ B ":" ++ cat ++ B ":" ++ id ++ B ":".
(* The device of a command as a member *)
Definition this_dev (u : ucmd) : bytes := dev_item (str (uid_s (u_dev u))).
