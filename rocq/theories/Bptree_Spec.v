(* Specification of the B+ tree: a set of records, each with the set of names it is stored under. *)
From Verif Require Import Base Bptree_Model.
From Coq Require Import Sorted.

(* strcmp order *)
Definition str_lt (a b : list ascii) : Prop :=
  exists p, (a = p /\ exists c y, b = p ++ c :: y) \/
            (exists c x d y, a = p ++ c :: x /\ b = p ++ d :: y /\ (byteN c < byteN d)%N).
Definition keqb (a b : list ascii) : bool := if list_eq_dec ascii_dec a b then true else false.
Definition mem (k : list ascii) (l : list (list ascii)) : bool := existsb (keqb k) l.

(* one record: its names, its data and size *)
Definition grp := (list (list ascii) * (N * N))%type.
Definition glookup (k : list ascii) (gs : list grp) : option grp := List.find (fun g => mem k (fst g)) gs.
Definition out (g : grp) : N * N * N := (fst (snd g), snd (snd g), N.of_nat (length (fst g))).

Definition gwrite (k : list ascii) (v : N * N) (gs : list grp) : list grp :=
  match glookup k gs with
  | None => gs ++ [([k], v)]
  | Some _ => map (fun g => if mem k (fst g) then (fst g, v) else g) gs
  end.
Definition strip (k : list ascii) (l : list (list ascii)) : list (list ascii) := filter (fun x => negb (keqb k x)) l.
Definition has_name (g : grp) : bool := match fst g with [] => false | _ => true end.
Definition gdel (k : list ascii) (gs : list grp) : list grp :=
  filter has_name (map (fun g => (strip k (fst g), snd g)) gs).
(* make [a] one more name of the record named [k], and of that record only *)
Definition gname (k a : list ascii) (gs : list grp) : list grp :=
  filter has_name (map (fun g => if mem k (fst g) then (a :: strip a (fst g), snd g) else (strip a (fst g), snd g)) gs).

Definition gstep (gs : list grp) (o : bop) : list grp * Z :=
  match o with
  | BAdd k d z => (gwrite k (d, z) gs, 0%Z)
  | BAlias k a force =>
      match glookup k gs with
      | None => (gs, (-1)%Z)
      | Some g => if mem a (fst g) then (gs, 0%Z)
                  else if existsb (fun g' => mem a (fst g')) gs && negb force then (gs, (-1)%Z)
                  else (gname k a gs, 0%Z)
      end
  | BUpdate k cb =>
      (match cb (option_map out (glookup k gs)) with
       | (BWRITE, v) => gwrite k v gs
       | (BREMOVE, _) => gdel k gs
       | (BSKIP, _) => gs
       end, 0%Z)
  | BDel k => (gdel k gs, 0%Z)
  end.
Fixpoint grun (gs : list grp) (ops : list bop) : list grp * list Z :=
  match ops with
  | [] => (gs, [])
  | o :: r => let x := gstep gs o in let y := grun (fst x) r in (fst y, snd x :: snd y)
  end.

(* A deletion is safe when the name deleted is the least name of its record. *)
Definition removes (gs : list grp) (o : bop) : option (list ascii) :=
  match o with
  | BDel k => Some k
  | BUpdate k cb => match cb (option_map out (glookup k gs)) with (BREMOVE, _) => Some k | _ => None end
  | _ => None
  end.
Definition safe_step (gs : list grp) (o : bop) : Prop :=
  match removes gs o with
  | None => True
  | Some k => forall g k', glookup k gs = Some g -> In k' (fst g) -> k' = k \/ str_lt k k'
  end.
Fixpoint safe (gs : list grp) (ops : list bop) : Prop :=
  match ops with
  | [] => True
  | o :: r => safe_step gs o /\ safe (fst (gstep gs o)) r
  end.

(* histories without aliases, against a plain map *)
Definition no_alias (o : bop) : bool := match o with BAlias _ _ _ => false | _ => true end.
Definition pmap := list ascii -> option (N * N).
Definition pset (m : pmap) (k : list ascii) (v : option (N * N)) : pmap := fun k' => if keqb k k' then v else m k'.
Definition pout (v : N * N) : N * N * N := (fst v, snd v, 1%N).
Definition pstep (m : pmap) (o : bop) : pmap :=
  match o with
  | BAdd k d z => pset m k (Some (d, z))
  | BUpdate k cb =>
      match cb (option_map pout (m k)) with
      | (BWRITE, v) => pset m k (Some v)
      | (BREMOVE, _) => pset m k None
      | (BSKIP, _) => m
      end
  | BDel k => pset m k None
  | BAlias _ _ _ => m
  end.
Definition prun (ops : list bop) : pmap := fold_left pstep ops (fun _ => None).

(* what a walk over the stored records counts *)
Definition names (gs : list grp) : list (list ascii) := flat_map fst gs.
Definition data_bytes (gs : list grp) : N := fold_right (fun g n => (snd (snd g) + n)%N) 0%N gs.
Definition name_bytes (ks : list (list ascii)) : N := fold_right (fun k n => (16 + N.of_nat (length k) + 1 + n)%N) 0%N ks.
(* number of nodes of a tree *)
Fixpoint count_nodes (t : tree) : nat :=
  match t with Leaf _ _ _ _ => 1 | Node _ cs => S (fold_right (fun c n => count_nodes c + n) 0 cs) end.

(* shape: every leaf at depth h, node sizes between min and max *)
Fixpoint balanced (o h : nat) (isroot : bool) (t : tree) : Prop :=
  match t with
  | Leaf _ _ ks rs => h = 0 /\ length ks = length rs /\ length ks <= o - 1 /\ (if isroot then 1 else (o - 1 + 1) / 2) <= length ks
  | Node ks cs => 1 <= h /\ length cs = S (length ks) /\ length cs <= o /\ (if isroot then 2 else (o + 1) / 2) <= length cs /\
                  (fix all (l : list tree) : Prop := match l with [] => True | c :: r => balanced o (h - 1) false c /\ all r end) cs
  end.

(* [l] lists, in strcmp order and once each, the names satisfying [P] with what is stored under them *)
Definition lists (l : list (list ascii * (N * N * N))) (P : list ascii -> Prop) (gs : list grp) : Prop :=
  Sorted.StronglySorted str_lt (map fst l) /\ forall k v, In (k, v) l <-> option_map out (glookup k gs) = Some v /\ P k.
Definition str_le (a b : list ascii) : Prop := a = b \/ str_lt a b.
(* [s] is the tree of order [o] after the calls [ops], [cs] their return codes *)
Definition reaches (o : nat) (ops : list bop) (s : bpt) (cs : list Z) : Prop :=
  exists s0, bptree_create o = Some s0 /\ brun s0 ops = Ok (s, cs).
(* fewer than 2^32 - 1 bptree_add_alias calls: the 32-bit reference count of a record does not wrap *)
Definition few_aliases (ops : list bop) : Prop := (N.of_nat (length (filter (fun o => negb (no_alias o)) ops)) + 1 < 2 ^ 32)%N.
(* the records after a history *)
Definition stored (ops : list bop) : list grp := fst (grun [] ops).
(* data and size of a lookup, without the number of names *)
Definition data (x : outcome (option (N * N * N))) : outcome (option (N * N)) := let! v := x in Ok (option_map fst v).
