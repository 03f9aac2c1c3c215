From Coq Require Import Permutation.
From Verif Require Import Base UbrKey_Model UbrDb_Model UbrPerm_Spec UbrDelta_Model UbrDelta_Spec UbrSync_Model.
Local Open Scope nat_scope.

Definition store := bytes -> option rec.
Definition listed (m : store) (k : bytes) : list bytes := match m k with Some r => r_data r | None => [] end.
(* Member lists are in order and owners are C strings *)
Definition sane (m : store) : Prop := (forall k, main_key k -> sorted (listed m k)) /\ (forall k r, m k = Some r -> no_nul (r_owner r)).

(* A change of an older event, or one the owner's flags do not allow, is not accepted *)
Definition accepts (old : option rec) (owner : bytes) (seq : N) : Prop :=
  match old with None => True | Some o => (seq = 0%N \/ (r_seq o <= seq)%N) /\ may_write o owner end.

(* A record of a message for a plain key: a value, or a removal when there is no data.  A record marked reserved is no removal:
   for a member list the mark is enough, for a value it has to be the only flag (as the code has it). *)
Definition removal (r : srec) : Prop :=
  r_data (s_rec r) = [] /\ (if s_vec r then N.testbit (r_flags (s_rec r)) 4 = false else r_flags (s_rec r) <> 16%N).
Definition keeps_archive (r : srec) : Prop := N.testbit (r_flags (s_rec r)) 3 = true.
Definition archive_of (k : bytes) : bytes := "~"%char :: k.
(* What it does to the store, taken alone *)
Definition plain_effect (m m' : store) (r : srec) : Prop :=
  let k := s_key r in
  let v := s_rec r in
  let accepted o := accepts o (r_owner v) (r_seq v) in
  (forall x, x <> k -> x <> archive_of k -> m' x = m x)
  /\ (~ accepted (m k) -> m' k = m k)
  /\ (accepted (m k) -> removal r -> m' k = None)
  /\ (accepted (m k) -> ~ removal r -> m' k = Some v)
  /\ (keeps_archive r -> accepted (m k) -> m k <> None -> m' (archive_of k) = m k)
  /\ (keeps_archive r -> ~ accepted (m k) \/ m k = None -> m' (archive_of k) = m (archive_of k))
  /\ (~ keeps_archive r -> accepted (m (archive_of k)) -> m' (archive_of k) = None)
  /\ (~ keeps_archive r -> ~ accepted (m (archive_of k)) -> m' (archive_of k) = m (archive_of k)).

(* A record adding members to the list at k or removing some *)
Definition change (op : kv_op) (k : bytes) (r : srec) : Prop :=
  s_vec r = true /\ main_key k
  /\ match op with OP_PLUS => s_key r = "+"%char :: k | OP_MINUS => s_key r = "-"%char :: k | OP_SET => False end.
Definition change_effect (m m' : store) (op : kv_op) (k : bytes) (r : srec) : Prop :=
  let v := s_rec r in
  (forall x, x <> k -> m' x = m x)
  /\ exists l, m' k = Some (Rec (r_seq v) (r_flags v) (r_gen v) (r_owner v) l) /\ sorted l
       /\ forall x, In x l <-> result op (listed m k) (r_data v) x.

(* The records of a message one after the other, each with its own operation *)
Inductive effects : store -> list srec -> store -> Prop :=
| Ef_nil : forall m m', (forall x, m' x = m x) -> effects m [] m'
| Ef_plain : forall m m' m'' r l, main_key (s_key r) -> plain_effect m m' r -> effects m' l m'' -> effects m (r :: l) m''
| Ef_change : forall m m' m'' op k r l, change op k r -> change_effect m m' op k r -> effects m' l m'' -> effects m (r :: l) m''.

(* A message as a worker sends it: in the order of the keys changes of members come first, they are made by the core with the
   reserved mark; every other key occurs once; member lists are in order *)
Definition core_change (r : srec) : Prop :=
  (exists op k, change op k r) /\ r_owner (s_rec r) = B "/" /\ N.testbit (r_flags (s_rec r)) 4 = true.
Definition in_order (l : list srec) : Prop :=
  (exists ds ps, l = ds ++ ps /\ Forall core_change ds /\ Forall (fun r => main_key (s_key r)) ps /\ NoDup (map s_key ps))
  /\ Forall (fun r => sorted (r_data (s_rec r)) /\ no_nul (r_owner (s_rec r))) l.

(* Several messages, one transaction each *)
Inductive syncs : db -> list (list srec) -> db -> Prop :=
| Sy_nil : forall d, syncs d [] d
| Sy_cons : forall d d' d'' l ls, sync_main d l = Ok d' -> syncs d' ls d'' -> syncs d (l :: ls) d''.

(* A worker's work on groups that never destroys one and creates only groups that are not synchronised *)
Definition merging_op (o : gop) : Prop :=
  match o with
  | AliasRename _ _ _ _ _ _ | GrpDestroy _ _ _ _ _ _ _ => False
  | GrpCreate _ _ _ flags _ _ => N.testbit flags 1 = false
  | _ => True
  end.
(* The records of the sync index in the order of their keys *)
Definition index_list (d : db) (keys : list bytes) : Prop := sorted keys /\ forall k, In k keys <-> indexed d k = true.
(* Main store from which workers are started: nothing waits for being sent *)
Definition quiet (d : db) : Prop := fresh d /\ forall k, indexed d k = false.
(* The key of a member list; lists and their deltas are vectors *)
Definition list_key (k : bytes) : Prop := main_key k /\ exists item, k = members_of item \/ k = in_of item.
Definition lists_are_vectors (vec : bytes -> bool) : Prop :=
  forall k, list_key k -> vec k = true /\ vec ("+"%char :: k) = true /\ vec ("-"%char :: k) = true.
(* A worker started from d0 whose groups ended as in d and which sent l *)
Definition worker (vec : bytes -> bool) (d0 d : db) (l : list srec) : Prop :=
  exists ops keys lines d', Forall good_op ops /\ Forall merging_op ops /\ gsteps d0 ops = Ok d /\ index_list d keys
    /\ export vec keys d = Ok (Some (lines, l, d')).

(* Additions to and removals from the list at k by the records of l *)
Definition added (l : list srec) (k x : bytes) : Prop := exists r, In r l /\ s_key r = "+"%char :: k /\ In x (r_data (s_rec r)).
Definition removed (l : list srec) (k x : bytes) : Prop := exists r, In r l /\ s_key r = "-"%char :: k /\ In x (r_data (s_rec r)).

(* Records whose sync flag and index entry go together: all but member lists (their deltas are sent) and archives *)
Definition tracked (x : bytes) : Prop := (exists c k, In c [":"%char; "+"%char; "-"%char] /\ x = c :: k) /\ ~ list_key x.
Definition wants_sync (d : db) (x : bytes) : Prop := exists r, recs d x = Some r /\ N.testbit (r_flags r) 1 = true.
Definition index_ok (d : db) : Prop := forall x, tracked x -> (indexed d x = true <-> wants_sync d x).
(* Properties for udev do not have the names of deltas *)
Definition plain_property (vec : bytes -> bool) (k : bytes) : Prop :=
  vec k = false -> get_ns_from_key k = NS_UDEV -> forall c, get_key_part k KEY_PART_CORE = Some c -> forall t, c <> "+"%char :: t /\ c <> "-"%char :: t.
(* The values that the records of l have for the key k, all by one owner, with the number of an event and none for removing it *)
Definition writes (l : list srec) (k : bytes) (v : rec) : Prop := exists r, In r l /\ s_key r = k /\ s_rec r = v.
Definition only_values (ls : list (list srec)) (k owner : bytes) : Prop :=
  (forall r, In r (List.concat ls) -> s_key r = k -> ~ removal r /\ r_owner (s_rec r) = owner /\ r_seq (s_rec r) <> 0%N)
  /\ (forall op r, In r (List.concat ls) -> ~ change op k r).
(* A removal of all members by a record without the reserved mark *)
Definition empties (m : store) (k : bytes) (r : srec) : Prop :=
  change OP_MINUS k r /\ r_owner (s_rec r) = B "/" /\ N.testbit (r_flags (s_rec r)) 4 = false /\ sorted (r_data (s_rec r)) /\ r_data (s_rec r) <> []
  /\ forall x, In x (listed m k) -> In x (r_data (s_rec r)).
(* The work of a worker: writing records, reservations, groups and any number of exports, with the messages sent *)
Inductive work (vec : bytes -> bool) : db -> list (list srec) -> db -> Prop :=
| Wk_nil : forall d, work vec d [] d
| Wk_set : forall d u owner dom n core value flags d1 c st ms d2, do_kv_set d u owner dom n core value flags false = Ok (d1, c, st) ->
    work vec d1 ms d2 -> work vec d ms d2
| Wk_reserve : forall d gen owner n core flags d1 c ms d2, kv_reserve d gen owner n core flags true = Ok (d1, c) -> work vec d1 ms d2 -> work vec d ms d2
| Wk_unreserve : forall d gen owner n core d1 c ms d2, kv_unreserve d gen owner n core true = Ok (d1, c) -> work vec d1 ms d2 -> work vec d ms d2
| Wk_group : forall d o d1 c ms d2, gstep d o = Ok (d1, c) -> work vec d1 ms d2 -> work vec d ms d2
| Wk_export : forall d keys lines l d1 ms d2, index_list d keys -> Forall (plain_property vec) keys -> export vec keys d = Ok (Some (lines, l, d1)) ->
    work vec d1 ms d2 -> work vec d (l :: ms) d2.
(* The main store before a round: lists are in order, nothing waits *)
Definition ready_store (d : db) : Prop := well_formed d /\ sane (recs d) /\ quiet d.
(* Any number of rounds: workers are started from the same main store, their messages arrive in any order *)
Inductive rounds (vec : bytes -> bool) : db -> db -> Prop :=
| Rd_nil : forall d, rounds vec d d
| Rd_cons : forall d ds ls ls' d' d'', Forall2 (worker vec d) ds ls -> Permutation ls ls' -> syncs d ls' d' -> rounds vec d' d'' -> rounds vec d d''.
