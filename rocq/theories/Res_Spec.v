From Verif Require Import Base Res_Model.
Local Open Scope nat_scope.

Definition live (s : st) (r : nat) : Prop := rget s r <> None.
Definition parent_of (s : st) (c p : nat) : Prop := exists k, rget s c = Some k /\ r_parent k = Some p.
Definition child_of (s : st) (p c : nat) : Prop := exists k, rget s p = Some k /\ In c (r_children k).
(* a is above r, or is r *)
Inductive above (s : st) (a : nat) : nat -> Prop :=
| Ab_self : above s a a
| Ab_up c p : parent_of s c p -> above s a p -> above s a c.
Definition prio_of (s : st) (r : nat) : Z := match rget s r with Some k => r_prio k | None => 0%Z end.
Definition children_of (s : st) (r : nat) : list nat := match rget s r with Some k => r_children k | None => [] end.

(* A forest: parents and children agree, nothing is above itself *)
Definition forest (s : st) : Prop :=
  (forall p c, child_of s p c <-> parent_of s c p) /\ (forall c p, parent_of s c p -> live s p) /\ (forall p, NoDup (children_of s p))
  /\ (forall c p, parent_of s c p -> ~ above s c p).
(* Children by priority *)
Fixpoint ordered (s : st) (l : list nat) : Prop := match l with [] => True | c :: l => (forall d, In d l -> (prio_of s c <= prio_of s d)%Z) /\ ordered s l end.
(* b is behind a *)
Definition behind (l : list nat) (a b : nat) : Prop := exists x y z, l = x ++ a :: y ++ b :: z.

(* The calls and their results *)
Inductive rop :=
| CreateBegin (parent : option nat) (type : nat) (short part : option bytes) (loop : bool) (flags : N) (prio : Z)
| CreateOk (r : nat) | CreateFail (r : nat) | Ref (r : nat) | Unref (r : nat) | SetPrio (r : nat) (prio : Z) | AddChild (r child : nat) (flags : N) | Isolate (r : nat) (flags : N).
(* the store after a call, the resources whose destroy function was called, the result (of CreateBegin: the resource) *)
Definition call (s : st) (o : rop) : outcome (st * list nat * Z) :=
  match o with
  | CreateBegin p t sh part l f pr => let! (s, r) := create_begin s p t sh part l f pr in Ok (s, [], Z.of_nat r)
  | CreateOk r => let! s := create_ok s r in Ok (s, [], 0%Z)
  | CreateFail r => let! (s, tr) := create_fail s r in Ok (s, tr, 0%Z)
  | Ref r => let! s := ref s r in Ok (s, [], 0%Z)
  | Unref r => let! (s, tr) := unref s r in Ok (s, tr, 0%Z)
  | SetPrio r p => let! s := set_prio s r p in Ok (s, [], 0%Z)
  | AddChild r c f => let! (s, z) := add_child s r c f in Ok (s, [], z)
  | Isolate r f => let! (s, z) := isolate s r f in Ok (s, [], z)
  end.
(* References held: those taken and not dropped *)
Fixpoint held (h : list rop) (r : nat) : nat :=
  match h with
  | [] => 0
  | Ref x :: h => if x =? r then S (held h r) else held h r
  | Unref x :: h => if x =? r then pred (held h r) else held h r
  | _ :: h => held h r
  end.
(* The resource is being created *)
Definition unfinished (s : st) (r : nat) : Prop := exists k, rget s r = Some k /\ r_init k = false.
(* Calls a user may make, where h are the calls made so far, the last first: of resources that exist, no more references than can be
   counted; a resource being created is dropped only by who has a reference, and its creation ends once; a resource that cannot be
   created has no references left to it or its children; a child is not added below itself *)
Definition may (h : list rop) (s : st) (o : rop) : Prop :=
  match o with
  | CreateBegin p _ _ _ _ _ _ => match p with Some p => live s p | None => True end
  | CreateOk r => unfinished s r
  | CreateFail r => unfinished s r /\ held h r = 0 /\ (forall c, child_of s r c -> held h c = 0 /\ ~ unfinished s c)
  | Ref r => live s r /\ (N.of_nat (held h r) < 4294967293)%N
  | Unref r => live s r /\ (unfinished s r -> 0 < held h r)
  | SetPrio r _ => live s r
  | AddChild r c _ => live s r /\ live s c /\ ~ above s c r
  | Isolate r _ => live s r
  end.
Inductive reached : list rop -> st -> Prop :=
| R_start : reached [] []
| R_call h s o s' tr z : reached h s -> may h s o -> call s o = Ok (s', tr, z) -> reached (o :: h) s'.

(* What goes with r if r is destroyed: everything below reached by way of resources nobody has a reference to *)
Inductive goes (h : list rop) (s : st) (r : nat) : nat -> Prop :=
| G_self : goes h s r r
| G_child x c : goes h s r x -> child_of s x c -> held h c = 0 -> ~ unfinished s c -> goes h s r c.
(* what becomes of the record of a survivor: its links to what went are cut *)
Definition cut (gone : list nat) (k : rrec) : rrec :=
  let orphan := match r_parent k with Some p => if in_dec Nat.eq_dec p gone then true else false | None => false end in
  Rrec (if orphan then None else r_parent k) (filter (fun c => if in_dec Nat.eq_dec c gone then false else true) (r_children k)) (r_type k) (r_short k) (r_id k) (r_flags k) (r_prio k)
    (if orphan then r_refs k - 1 else r_refs k)%N (r_init k) (r_loop k).
(* a record with other links and another count *)
Definition relink (k : rrec) (p : option nat) (l : list nat) (n : N) : rrec := Rrec p l (r_type k) (r_short k) (r_id k) (r_flags k) (r_prio k) n (r_init k) (r_loop k).
(* r was put into l by its priority, behind those of the same priority *)
Definition inserted (s : st) (r : nat) (l l' : list nat) : Prop := exists a b, l = a ++ b /\ l' = a ++ r :: b
  /\ (forall c, In c a -> (prio_of s c <= prio_of s r)%Z) /\ (forall c, In c b -> (prio_of s r < prio_of s c)%Z).
(* r alone was cut out from below p, its children moved there *)
Definition isolated (s s' : st) (r p : nat) : Prop := exists l,
  (forall x, rget s' x = option_map (fun k => relink k
     (if x =? r then None else match r_parent k with Some q => Some (if q =? r then p else q) | None => None end)
     (if x =? r then [] else if x =? p then l else r_children k)
     (if x =? r then (r_refs k - 1)%N else r_refs k)) (rget s x))
  /\ (forall c, In c l <-> c <> r /\ (child_of s p c \/ child_of s r c)) /\ NoDup l /\ ordered s l
  /\ (forall a b, a <> r -> b <> r -> behind (children_of s p) a b -> behind l a b) /\ (forall a b, behind (children_of s r) a b -> behind l a b)
  /\ (forall a b, a <> r -> In a (children_of s p) -> In b (children_of s r) -> prio_of s a = prio_of s b -> behind l a b).
(* What a call does: the store before and after, the resources whose destroy function was called, the result *)
Definition effect (h : list rop) (s : st) (o : rop) (s' : st) (tr : list nat) (z : Z) : Prop :=
  match o with
  | CreateBegin p type short part loop flags prio => let r := length s in tr = [] /\ z = Z.of_nat r /\ length s' = S r
    /\ rget s' r = Some (Rrec p [] type short (match short with Some n => n | None => [] end ++ match part with Some q => B " " ++ q | None => [] end) flags prio (match p with Some _ => 2 | None => 1 end) false loop)
    /\ exists l, (forall x, x < r -> rget s' x = option_map (fun k => if match p with Some q => x =? q | None => false end then relink k (r_parent k) l (r_refs k) else k) (rget s x))
      /\ match p with Some q => inserted s' r (children_of s q) l | None => True end
  | CreateOk r => tr = [] /\ length s' = length s /\ forall x, rget s' x = option_map (fun k => if x =? r then Rrec (r_parent k) (r_children k) (r_type k) (r_short k) (r_id k) (r_flags k) (r_prio k) (r_refs k - 1) true (r_loop k) else k) (rget s x)
  | CreateFail r => length s' = length s /\ NoDup tr /\ ~ In r tr /\ (forall x, goes h s r x <-> x = r \/ In x tr) /\ forall x, rget s' x = if in_dec Nat.eq_dec x (r :: tr) then None else option_map (cut (r :: tr)) (rget s x)
  | Ref r => tr = [] /\ length s' = length s /\ forall x, rget s' x = option_map (fun k => if x =? r then relink k (r_parent k) (r_children k) (r_refs k + 1) else k) (rget s x)
  | Unref r => length s' = length s
    /\ (held h r = 0 \/ held h r = 1 /\ (forall p, ~ parent_of s r p) /\ ~ unfinished s r ->
        NoDup tr /\ (forall x, goes h s r x <-> In x tr) /\ (forall x c, In x tr -> In c tr -> child_of s x c -> behind tr c x)
        /\ (forall x a b, In x tr -> In a tr -> In b tr -> behind (children_of s x) a b -> behind tr b a)
        /\ forall x, rget s' x = if in_dec Nat.eq_dec x tr then None else option_map (cut tr) (rget s x))
    /\ (2 <= held h r \/ held h r = 1 /\ ((exists p, parent_of s r p) \/ unfinished s r) ->
        tr = [] /\ forall x, rget s' x = option_map (fun k => if x =? r then relink k (r_parent k) (r_children k) (r_refs k - 1) else k) (rget s x))
  | SetPrio r prio => tr = [] /\ length s' = length s
    /\ (prio_of s r = prio \/ (forall p, ~ parent_of s r p) -> s' = s)
    /\ forall p, parent_of s r p -> prio_of s r <> prio -> exists l, inserted s' r (remove Nat.eq_dec r (children_of s p)) l
       /\ forall x, rget s' x = option_map (fun k => if x =? r then Rrec (r_parent k) (r_children k) (r_type k) (r_short k) (r_id k) (r_flags k) prio (r_refs k) (r_init k) (r_loop k) else if x =? p then relink k (r_parent k) l (r_refs k) else k) (rget s x)
  | AddChild r c flags => tr = [] /\ length s' = length s
    /\ ((exists p, parent_of s c p) -> s' = s /\ z = (- EBUSY)%Z)
    /\ ((forall p, ~ parent_of s c p) -> z = 0%Z /\ exists l, inserted s' c (children_of s r) l
       /\ forall x, rget s' x = option_map (fun k => if x =? c then Rrec (Some r) (r_children k) (r_type k) (r_short k) (r_id k) flags (r_prio k) (r_refs k + 1) (r_init k) (r_loop k) else if x =? r then relink k (r_parent k) l (r_refs k) else k) (rget s x))
  | Isolate r flags => tr = [] /\ length s' = length s
    /\ forall k, rget s r = Some k ->
       ((r_loop k = true \/ r_parent k = None \/ N.testbit (r_flags k) BIT_NO_ISOLATION = true) -> s' = s /\ z = (- EPERM)%Z)
    /\ forall p, r_loop k = false -> r_parent k = Some p -> N.testbit (r_flags k) BIT_NO_ISOLATION = false -> z = 0%Z
       /\ (N.testbit flags BIT_SUBTREE = true -> forall x, rget s' x = option_map (fun k => if x =? r then relink k None (r_children k) (r_refs k - 1) else if x =? p then relink k (r_parent k) (remove Nat.eq_dec r (r_children k)) (r_refs k) else k) (rget s x))
       /\ (N.testbit flags BIT_SUBTREE = false -> isolated s s' r p)
  end.

(* Searching.  Marks of resources that are not to be walked to are heeded if w *)
Definition shown (s : st) (w : bool) (x : nat) : bool := negb w || match rget s x with Some k => negb (N.testbit (r_flags k) BIT_RESTRICT_DOWN) | None => true end.
Definition way_up (s : st) (w : bool) (x : nat) : bool := negb w || match rget s x with Some k => negb (N.testbit (r_flags k) BIT_RESTRICT_UP) | None => true end.
(* depth first through the given resources: each, what is below it, the next *)
Inductive pre_order (s : st) (w : bool) : list nat -> list nat -> Prop :=
| PO_nil : pre_order s w [] []
| PO_skip c cs l : shown s w c = false -> pre_order s w cs l -> pre_order s w (c :: cs) l
| PO_go c cs l1 l2 : shown s w c = true -> pre_order s w (children_of s c) l1 -> pre_order s w cs l2 -> pre_order s w (c :: cs) (c :: l1 ++ l2).
(* below each of the given resources: first all its children, then what is below them *)
Inductive wide_below (s : st) (w : bool) : list nat -> list nat -> Prop :=
| WB_nil : wide_below s w [] []
| WB_cons r rs l1 l2 : wide_below s w (children_of s r) l1 -> wide_below s w rs l2 -> wide_below s w (r :: rs) (filter (shown s w) (children_of s r) ++ l1 ++ l2).
(* upwards from r, as far as is allowed *)
Inductive ups (s : st) (w : bool) : nat -> list nat -> Prop :=
| U_top r : (forall p, ~ parent_of s r p) -> ups s w r []
| U_stop r p : parent_of s r p -> way_up s w r = false -> ups s w r []
| U_go r p l : parent_of s r p -> way_up s w r = true -> ups s w p l -> ups s w r (p :: l).
(* the top above r, if it may be reached *)
Inductive tops (s : st) (w : bool) : nat -> list nat -> Prop :=
| T_top r : (forall p, ~ parent_of s r p) -> tops s w r [r]
| T_stop r p : parent_of s r p -> way_up s w r = false -> tops s w r []
| T_go r p l : parent_of s r p -> way_up s w r = true -> tops s w p l -> tops s w r l.
(* the resources a method looks at, in order *)
Definition visits (s : st) (w : bool) (me : method) (start : nat) (l : list nat) : Prop :=
  match me with
  | IMM_DESC => l = filter (shown s w) (children_of s start)
  | DFS => pre_order s w (children_of s start) l
  | WIDE_DFS => wide_below s w [start] l
  | IMM_ANC => exists up, ups s w start up /\ l = firstn 1 up
  | ANC => ups s w start l
  | TOP => tops s w start l
  | GENUS => exists t, tops s w start t /\ wide_below s w t l
  | SIB => exists up, ups s w start up /\ l = match up with [] => [] | p :: _ => filter (fun c => shown s w c && negb (w && (c =? start))) (children_of s p) end
  end.
(* a resource has the type and the id asked for *)
Definition named (k : rrec) (i : bytes) : Prop := match r_short k with Some n => r_id k = n ++ B " " ++ i | None => r_id k = i end.
Definition matches (s : st) (type : option nat) (id : option bytes) (x : nat) : Prop := exists k, rget s x = Some k
  /\ match type with Some t => r_type k = t | None => True end /\ match id with Some i => named k i | None => True end.
(* if an id is asked for, those of the type have one *)
Definition readable (s : st) (type : option nat) (id : option bytes) : Prop := id <> None -> forall x k, rget s x = Some k ->
  match type with Some t => r_type k = t | None => True end -> exists i, named k i.
Definition first_match (P : nat -> Prop) (l : list nat) (f : option nat) : Prop := match f with
  | Some x => exists a b, l = a ++ x :: b /\ P x /\ forall y, In y a -> ~ P y
  | None => forall y, In y l -> ~ P y
  end.
(* iterating: the results of n calls *)
Fixpoint take_next (n : nat) (s : st) (i : iter) : outcome (list (option nat)) := match n with O => Ok [] | S n => let! (i, x) := iter_next (fuel_of s) s i in let! l := take_next n s i in Ok (x :: l) end.
Fixpoint take_previous (n : nat) (s : st) (i : iter) : outcome (list (option nat)) := match n with O => Ok [] | S n => let! (i, x) := iter_previous (fuel_of s) s i in let! l := take_previous n s i in Ok (x :: l) end.
(* a history together with all calls of destroy functions it made *)
Inductive ran : list rop -> st -> list nat -> Prop :=
| N_start : ran [] [] []
| N_call h s all o s' tr z : ran h s all -> may h s o -> call s o = Ok (s', tr, z) -> ran (o :: h) s' (all ++ tr).
