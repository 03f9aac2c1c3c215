(* Model of src/internal/bptree.c: B+ tree with string keys, shared records (aliases) and iterators.

   Representation choices (all simplifications):
   - malloc/strdup always succeed, so the out-of-memory error paths are not modelled.
   - A node is a value of type [tree]; a node's arrays are the lists of its valid entries, with capacity order-1
     for bkeys and order for pointers: an access outside the valid part, or a write beyond the capacity, is [UB].
   - The [parent] field is not stored: the recursion descends from the root, so that the position of a node in its
     parent (_get_left_index, l.472-480; _get_neighbor_index, l.917-933) is the index taken by the descent.
   - A bptree_key_t object is identified by its string: creating a second object for a string whose object is still
     alive is [UB] in the model (so that comparing strings is comparing object pointers), and reference counts are
     replayed on a log of _ref_bkey/_unref_bkey calls in which any use of a destroyed object is [UB].
   - Leaves carry their address and the address stored in pointers[order-1], the next leaf.
   - ints (order, num_keys, indices) are unbounded naturals: order is far below 2^31. *)
From Verif Require Import Base.

Notation key := (list ascii) (only parsing).
Notation rid := N (only parsing).   (* address of a bptree_record_t *)
Notation addr := N (only parsing).  (* address of a leaf node *)

(* strcmp on unsigned chars; strings are lists of characters before the NUL. *)
Fixpoint scmp (a b : key) : comparison :=
  match a, b with
  | [], [] => Eq
  | [], _ => Lt
  | _, [] => Gt
  | x :: a', y :: b' => match N.compare (byteN x) (byteN y) with Eq => scmp a' b' | c => c end
  end.
Definition sgt a b := match scmp a b with Gt => true | _ => false end.
Definition sle a b := match scmp a b with Gt => false | _ => true end.
Definition seq a b := match scmp a b with Eq => true | _ => false end.

(* strncmp(p, k, strlen(p)) == 0 *)
Fixpoint is_prefix (p k : key) : bool :=
  match p, k with
  | [], _ => true
  | x :: p', y :: k' => Ascii.eqb x y && is_prefix p' k'
  | _ :: _, [] => false
  end.

(* struct bptree_node, src/internal/bptree.c:77-83 *)
Inductive tree :=
| Leaf (a : addr) (next : option addr) (ks : list key) (rs : list rid)
| Node (ks : list key) (cs : list tree).

Definition num_keys (t : tree) : nat := match t with Leaf _ _ ks _ => length ks | Node ks _ => length ks end.
Definition is_leaf (t : tree) : bool := match t with Leaf _ _ _ _ => true | Node _ _ => false end.

(* _ref_bkey / _unref_bkey calls, src/internal/bptree.c:368-382 *)
Inductive kev := KRef (k : key) | KUnref (k : key).

(* _cut, src/internal/bptree.c:295-298 *)
Definition cut (n : nat) : nat := (n + 1) / 2.

(* a[i] *)
Definition get {A} (a : list A) (i : nat) : outcome A := match nth_error a i with Some x => Ok x | None => UB end.

(* for (; i > lo; i--) a[i] = a[i - 1]; *)
Fixpoint shift_up {A} (a : list A) (lo i : nat) : outcome (list A) :=
  match i with
  | O => Ok a
  | S j =>
      if lo <? i then
        let! x := get a j in
        if i <? length a then shift_up (list_set a i x) lo j else UB
      else Ok a
  end.

(* cnt rounds of: a[i - 1] = a[i]; i++ *)
Fixpoint shift_down {A} (a : list A) (i cnt : nat) : outcome (list A) :=
  match cnt with
  | O => Ok a
  | S c => let! x := get a i in shift_down (list_set a (i - 1) x) (S i) c
  end.

(* Insertion into an array with [cap] slots: src/internal/bptree.c:499-506, 581-588, 1177-1194. *)
Definition arr_ins {A} (cap : nat) (a : list A) (ip : nat) (x : A) : outcome (list A) :=
  if length a <? cap then
    let! b := shift_up (a ++ [x]) ip (length a) in
    Ok (list_set b ip x)
  else UB.

(* Removal from an array: src/internal/bptree.c:980-981, 993-994, 1216-1222. *)
Definition arr_del {A} (a : list A) (i : nat) : outcome (list A) :=
  if i <? length a then
    let! b := shift_down a (S i) (length a - S i) in
    Ok (firstn (length a - 1) b)
  else UB.

(* while (i < num_keys) if (strcmp(key, bkeys[i]) > 0) i++; else break;  src/internal/bptree.c:200-205 *)
Fixpoint child_idx (k : key) (ks : list key) : nat :=
  match ks with
  | [] => 0
  | s :: r => if sgt k s then S (child_idx k r) else 0
  end.

(* _find_leaf, src/internal/bptree.c:187-211 *)
Fixpoint find_leaf (t : tree) (k : key) : outcome tree :=
  match t with
  | Leaf _ _ _ _ => Ok t
  | Node ks cs =>
      (fix go (l : list tree) (i : nat) : outcome tree :=
         match l, i with
         | c :: _, O => find_leaf c k
         | _ :: r, S j => go r j
         | [], _ => UB
         end) cs (child_idx k ks)
  end.

(* the search loop of _find, src/internal/bptree.c:246-254: index of the first match or num_keys *)
Fixpoint find_in {A} (p : A -> bool) (ks : list A) : nat :=
  match ks with
  | [] => 0
  | s :: r => if p s then 0 else S (find_in p r)
  end.

Inductive lookup := EXACT | PREFIX.
Definition kmatch (m : lookup) (k s : key) : bool := match m with EXACT => seq k s | PREFIX => is_prefix k s end.

(* _find, src/internal/bptree.c:216-272, on a non-empty tree: the leaf, the index (i_out), and the record if found *)
Definition find (t : tree) (m : lookup) (k : key) : outcome (tree * nat * option rid) :=
  let! lf := find_leaf t k in
  match lf with
  | Leaf _ _ ks rs =>
      let i := find_in (kmatch m k) ks in
      if i =? length ks then Ok (lf, 0, None) else let! r := get rs i in Ok (lf, i, Some r)
  | Node _ _ => UB
  end.

(* ---------- insertion ---------- *)

(* insertion point: src/internal/bptree.c:495-497 and 529-530 *)
Fixpoint ins_idx (k : key) (ks : list key) : nat :=
  match ks with
  | [] => 0
  | s :: r => if sle s k then S (ins_idx k r) else 0
  end.

(* filling of the new leaf, src/internal/bptree.c:536-546, for one of the two arrays *)
Fixpoint leaf_copy {A} (a : list A) (split ins : nat) (x : A) (n j i : nat) : outcome (list A) :=
  match n with
  | O => Ok []
  | S n' =>
      if split + j =? ins then
        let! r := leaf_copy a split ins x n' (S j) i in Ok (x :: r)
      else
        let! y := get a i in
        let! r := leaf_copy a split ins x n' (S j) (S i) in Ok (y :: r)
  end.

(* split of one array of a leaf, src/internal/bptree.c:532-555 *)
Definition leaf_split {A} (order : nat) (a : list A) (ins : nat) (x : A) : outcome (list A * list A) :=
  let split := cut (order - 1) in
  let! rgt := leaf_copy a split ins x (order - split) 0 (if ins <? split then split - 1 else split) in
  let! lft := (if ins <? split then
                  let! b := shift_up a ins (split - 1) in Ok (list_set b ins x)
                else Ok a) in
  Ok (firstn split lft, rgt).

(* filling of the new internal node, src/internal/bptree.c:618-639 *)
Fixpoint node_copy (ks : list key) (cs : list tree) (split li : nat) (bk : key) (right : tree) (n i j k : nat)
  : outcome (list key * list tree) :=
  match n with
  | O => if split + i =? li + 1 then Ok ([], [right]) else let! p := get cs j in Ok ([], [p])
  | S n' =>
      if split + i =? li then
        let! p := get cs j in
        let! r := node_copy ks cs split li bk right n' (S i) (S j) k in
        Ok (bk :: fst r, p :: snd r)
      else if split + i =? li + 1 then
        let! x := get ks k in
        let! r := node_copy ks cs split li bk right n' (S i) j (S k) in
        Ok (x :: fst r, right :: snd r)
      else
        let! p := get cs j in
        let! x := get ks k in
        let! r := node_copy ks cs split li bk right n' (S i) (S j) (S k) in
        Ok (x :: fst r, p :: snd r)
  end.

(* adjustment loop of the old node, src/internal/bptree.c:643-646 *)
Fixpoint node_shift (ks : list key) (cs : list tree) (li : nat) (right : tree) (i : nat)
  : outcome (list key * list tree) :=
  match i with
  | O => Ok (ks, cs)
  | S j =>
      if li <? i then
        let! p := (if li + 1 <? i then get cs j else Ok right) in
        let! x := get ks j in
        if (i <? length ks) && (i <? length cs) then node_shift (list_set ks i x) (list_set cs i p) li right j else UB
      else Ok (ks, cs)
  end.

(* _insert_into_node_after_splitting, src/internal/bptree.c:597-676: left node, bk_prime, right node *)
Definition node_split (order : nat) (ks : list key) (cs : list tree) (li : nat) (bk : key) (right : tree)
  : outcome (tree * key * tree) :=
  let split := cut order in
  let! new := node_copy ks cs split li bk right (order - split) 0
                (if li + 1 <? split then split - 1 else split) (if li <? split then split - 1 else split) in
  let! old := (if li <? split then
                 let! kc := node_shift ks cs li right (split - 1) in
                 if li <? length (fst kc) then Ok (list_set (fst kc) li bk, snd kc) else UB
               else Ok (ks, cs)) in
  let! bk_prime := get (fst old) (split - 1) in
  Ok (Node (firstn (split - 1) (fst old)) (firstn split (snd old)), bk_prime, Node (fst new) (snd new)).

(* Result of inserting below a node: the node, and if it was split, the key for the parent and the new right node. *)
Record ires := { il : tree; isplit : option (key * tree); ilog : list kev; ilate : list kev; iused : nat }.

(* One level of _insert_into_parent, src/internal/bptree.c:706-736, with _insert_into_node (576-591) and
   _insert_into_node_after_splitting.  [ilate] holds the _unref_bkey(bk_prime) calls (l.674) that run after the
   ancestors have been updated. *)
Definition ins_parent (order : nat) (ks : list key) (cs : list tree) (i : nat) (r : ires) : outcome ires :=
  let cs1 := list_set cs i (il r) in
  match isplit r with
  | None => Ok {| il := Node ks cs1; isplit := None; ilog := ilog r; ilate := ilate r; iused := iused r |}
  | Some (bk, rgt) =>
      if length ks <? order - 1 then
        let! ks2 := arr_ins (order - 1) ks i bk in
        let! cs2 := arr_ins order cs1 (S i) rgt in
        Ok {| il := Node ks2 cs2; isplit := None; ilog := ilog r ++ [KRef bk]; ilate := ilate r; iused := iused r |}
      else
        let! s := node_split order ks cs1 i bk rgt in
        let '(l, bkp, rt) := s in
        Ok {| il := l; isplit := Some (bkp, rt); ilog := ilog r ++ [KRef bk];
              ilate := KUnref bkp :: ilate r; iused := S (iused r) |}
  end.

(* _insert below the root: _find_leaf, then _insert_into_leaf (491-509) or _insert_into_leaf_after_splitting
   (515-570), then _insert_into_parent upwards.  src/internal/bptree.c:759-782. *)
Fixpoint ins (order : nat) (t : tree) (k : key) (r : rid) (fresh : addr) : outcome ires :=
  match t with
  | Leaf a nx ks rs =>
      let ip := ins_idx k ks in
      if length ks =? order - 1 then
        let! sk := leaf_split order ks ip k in
        let! sr := leaf_split order rs ip r in
        let! sep := get (fst sk) (cut (order - 1) - 1) in
        Ok {| il := Leaf a (Some fresh) (fst sk) (fst sr);
              isplit := Some (sep, Leaf fresh nx (snd sk) (snd sr));
              ilog := [KRef k]; ilate := []; iused := 1 |}
      else
        let! ks' := arr_ins (order - 1) ks ip k in
        let! rs' := arr_ins (order - 1) rs ip r in
        Ok {| il := Leaf a nx ks' rs'; isplit := None; ilog := [KRef k]; ilate := []; iused := 0 |}
  | Node ks cs =>
      let i := child_idx k ks in
      let! x := (fix go (l : list tree) (j : nat) : outcome ires :=
                   match l, j with
                   | c :: _, O => ins order c k r fresh
                   | _ :: l', S j' => go l' j'
                   | [], _ => UB
                   end) cs i in
      ins_parent order ks cs i x
  end.

(* _number_of_nodes_needed, src/internal/bptree.c:460-471, along the path to the leaf of [k]: the number of full
   nodes from the leaf upwards, and whether all of them are full *)
Fixpoint needed (order : nat) (t : tree) (k : key) : outcome (nat * bool) :=
  match t with
  | Leaf _ _ ks _ => if length ks =? order - 1 then Ok (1, true) else Ok (0, false)
  | Node ks cs =>
      let! x := (fix go (l : list tree) (j : nat) : outcome (nat * bool) :=
                   match l, j with
                   | c :: _, O => needed order c k
                   | _ :: l', S j' => go l' j'
                   | [], _ => UB
                   end) cs (child_idx k ks) in
      if snd x then if length ks =? order - 1 then Ok (S (fst x), true) else Ok (fst x, false) else Ok x
  end.
Definition nodes_needed (order : nat) (t : tree) (k : key) : outcome nat :=
  let! x := needed order t k in Ok (if snd x then S (fst x) else fst x).

(* ---------- deletion ---------- *)

(* Result of deleting below a node.  [dpend]: the key still to be swapped into an ancestor (l.949-950, 989-1013);
   [dfix]: key reference log of _remove_entry_from_node in the leaf; [dlog]: the log of the rebalancing;
   [dshrunk]: an entry was removed from this node itself, so that its parent has to check its size;
   [dfreed]: number of nodes destroyed. *)
Record dres := { dt : tree; dpend : option key; dfix : list kev; dlog : list kev; dshrunk : bool; dfreed : nat }.

(* _remove_entry_from_node on a leaf, src/internal/bptree.c:963-1035; [nonroot] is n->parent != NULL.
   The key is found by key, the pointer by record address, independently. *)
Definition remove_leaf (nonroot : bool) (a : addr) (nx : option addr) (ks : list key) (rs : list rid)
                       (k : key) (r : rid) : outcome dres :=
  let i := find_in (seq k) ks in
  let! pend := (if nonroot && (i =? length ks - 1) then
                  if i =? 0 then UB else let! p := get ks (i - 1) in Ok (Some p)
                else Ok None) in
  let! ks' := arr_del ks i in
  let! rs' := arr_del rs (find_in (N.eqb r) rs) in
  Ok {| dt := Leaf a nx ks' rs'; dpend := pend; dfix := [KUnref k]; dlog := []; dshrunk := true; dfreed := 0 |}.

(* The replacement of the deleted key in one ancestor, src/internal/bptree.c:1010-1032 *)
Definition swap_sep (ks : list key) (k : key) (pend : option key) : list key * option key * list kev :=
  match pend with
  | None => (ks, None, [])
  | Some s =>
      let m := find_in (seq k) ks in
      if m <? length ks then (list_set ks m s, None, [KUnref k; KRef s]) else (ks, pend, [])
  end.

(* min_keys, src/internal/bptree.c:1269 *)
Definition min_keys (order : nat) (t : tree) : nat := if is_leaf t then cut (order - 1) else cut order - 1.
(* capacity, src/internal/bptree.c:1294 *)
Definition capacity (order : nat) (t : tree) : nat := if is_leaf t then order else order - 1.

(* _coalesce_nodes without the final _delete_entry, src/internal/bptree.c:1073-1151: [l] takes over [r] *)
Definition merge (order : nat) (l r : tree) (bkp : key) : outcome (tree * list kev) :=
  match l, r with
  | Leaf a _ ks rs, Leaf _ nx ks' rs' =>
      if length ks + length ks' <=? order - 1 then Ok (Leaf a nx (ks ++ ks') (rs ++ rs'), []) else UB
  | Node ks cs, Node ks' cs' =>
      if length ks + 1 + length ks' <=? order - 1 then Ok (Node (ks ++ bkp :: ks') (cs ++ cs'), [KRef bkp]) else UB
  | _, _ => UB
  end.

(* _redistribute_nodes, src/internal/bptree.c:1158-1234: new left node, new separator, new right node, log *)
Definition redistribute (order : nat) (l r : tree) (from_left : bool) (bkp : key)
  : outcome (tree * key * tree * list kev) :=
  match l, r with
  | Leaf a nx ks rs, Leaf a' nx' ks' rs' =>
      if from_left then
        let! lk := get ks (length ks - 1) in
        let! lr := get rs (length ks - 1) in
        if length ks <? 2 then UB else
        let! sep := get ks (length ks - 2) in
        let! k2 := arr_ins (order - 1) ks' 0 lk in
        let! r2 := arr_ins (order - 1) rs' 0 lr in
        Ok (Leaf a nx (firstn (length ks - 1) ks) (firstn (length ks - 1) rs), sep, Leaf a' nx' k2 r2,
            [KRef sep; KUnref bkp])
      else
        let! fk := get ks' 0 in
        let! fr := get rs' 0 in
        if length ks <? order - 1 then
          let! k2 := arr_del ks' 0 in
          let! r2 := arr_del rs' 0 in
          Ok (Leaf a nx (ks ++ [fk]) (rs ++ [fr]), fk, Leaf a' nx' k2 r2, [KRef fk; KUnref bkp])
        else UB
  | Node ks cs, Node ks' cs' =>
      if from_left then
        let! lc := get cs (length ks) in
        let! sep := get ks (length ks - 1) in
        let! k2 := arr_ins (order - 1) ks' 0 bkp in
        let! c2 := arr_ins order cs' 0 lc in
        Ok (Node (firstn (length ks - 1) ks) (firstn (length ks) cs), sep, Node k2 c2, [])
      else
        let! fc := get cs' 0 in
        let! sep := get ks' 0 in
        if length ks <? order - 1 then
          let! k2 := arr_del ks' 0 in
          let! c2 := arr_del cs' 0 in
          Ok (Node (ks ++ [bkp]) (cs ++ [fc]), sep, Node k2 c2, [])
        else UB
  | _, _ => UB
  end.

(* The rest of _delete_entry for child [i] of a node, src/internal/bptree.c:1254-1304.  Coalescing ends with
   _delete_entry on the parent (l.1125), whose _remove_entry_from_node removes bk_prime and the right node. *)
Definition rebalance (order : nat) (ks : list key) (cs : list tree) (i : nat)
  : outcome (list key * list tree * list kev * bool * nat) :=
  let! n := get cs i in
  if min_keys order n <=? num_keys n then Ok (ks, cs, [], false, 0)
  else
    let from_left := negb (i =? 0) in
    let li := if from_left then i - 1 else 0 in       (* index of the left node of the pair, also k_prime_index *)
    let! bkp := get ks li in
    let! l := get cs li in
    let! r := get cs (S li) in
    if num_keys l + num_keys r <? capacity order n then
      let! m := merge order l r bkp in
      let! ks' := arr_del ks (find_in (seq bkp) ks) in
      let! cs' := arr_del (list_set cs li (fst m)) (S li) in
      Ok (ks', cs', snd m ++ [KUnref bkp], true, 1)
    else
      let! x := redistribute order l r from_left bkp in
      let '(l', sep, r', lg) := x in
      Ok (list_set ks li sep, list_set (list_set cs li l') (S li) r', lg, false, 0).

(* _delete_entry, src/internal/bptree.c:1241-1305, descending to the leaf *)
Fixpoint del (order : nat) (nonroot : bool) (t : tree) (k : key) (r : rid) : outcome dres :=
  match t with
  | Leaf a nx ks rs => remove_leaf nonroot a nx ks rs k r
  | Node ks cs =>
      let i := child_idx k ks in
      let! x := (fix go (l : list tree) (j : nat) : outcome dres :=
                   match l, j with
                   | c :: _, O => del order true c k r
                   | _ :: l', S j' => go l' j'
                   | [], _ => UB
                   end) cs i in
      let '(ks1, pend, fx) := swap_sep ks k (dpend x) in
      let cs1 := list_set cs i (dt x) in
      if dshrunk x then
        let! y := rebalance order ks1 cs1 i in
        let '(ks2, cs2, lg, shrunk, freed) := y in
        Ok {| dt := Node ks2 cs2; dpend := pend; dfix := dfix x ++ fx; dlog := dlog x ++ lg; dshrunk := shrunk;
              dfreed := dfreed x + freed |}
      else
        Ok {| dt := Node ks1 cs1; dpend := pend; dfix := dfix x ++ fx; dlog := dlog x; dshrunk := false;
              dfreed := dfreed x |}
  end.

(* _adjust_root, src/internal/bptree.c:1037-1066: new root and number of nodes destroyed *)
Definition adjust_root (t : tree) : outcome (option tree * nat) :=
  if 0 <? num_keys t then Ok (Some t, 0)
  else match t with
       | Node _ cs => let! c := get cs 0 in Ok (Some c, 1)
       | Leaf _ _ _ _ => Ok (None, 1)
       end.

(* ---------- whole tree ---------- *)

(* struct bptree_record, src/internal/bptree.c:40-44 *)
Record brec := { rdata : N; rsize : N; rref : N }.

(* struct bptree (src/internal/bptree.c:110-116) together with the heap it owns: records, key objects with their
   reference counts (None: not allocated), and the next free address. *)
Record bpt := {
  root : option tree; order : nat; meta : N; dsize : N; nent : N;
  recs : N -> option brec; kobj : key -> option N; bfresh : N }.

(* sizeof: bptree_t 40, bptree_record_t 24, bptree_key_t 16, bptree_node_t 32 (LP64) *)
Definition node_size (order : nat) : N := (32 + 8 * N.of_nat (order - 1) + 8 * N.of_nat order)%N.
Definition key_size (k : key) : N := (16 + N.of_nat (length k) + 1)%N.

Definition add64 (a b : N) : N := wrap64 (a + b).
Definition sub64 (a b : N) : N := wrap64 (a + (2 ^ 64 - b mod 2 ^ 64)).

(* bptree_create, src/internal/bptree.c:128-145 *)
Definition bptree_create (order : nat) : option bpt :=
  if order <=? 3 then None
  else Some {| root := None; order := order; meta := 40; dsize := 0; nent := 0;
               recs := fun _ => None; kobj := fun _ => None; bfresh := 1 |}.

Definition kset (f : key -> option N) (k : key) (v : option N) : key -> option N :=
  fun k' => if seq k k' then v else f k'.
Definition rset (f : N -> option brec) (r : N) (v : option brec) : N -> option brec :=
  fun r' => if (r =? r')%N then v else f r'.

(* _make_bkey, src/internal/bptree.c:341-358 *)
Definition make_bkey (k : key) (x : (key -> option N) * N) : outcome ((key -> option N) * N) :=
  match fst x k with
  | Some _ => UB
  | None => Ok (kset (fst x) k (Some 0%N), add64 (snd x) (key_size k))
  end.

(* _ref_bkey / _unref_bkey / _destroy_bkey, src/internal/bptree.c:360-382, on (key objects, meta_size) *)
Definition kstep (x : (key -> option N) * N) (e : kev) : outcome ((key -> option N) * N) :=
  match e with
  | KRef k => match fst x k with Some n => Ok (kset (fst x) k (Some (n + 1)%N), snd x) | None => UB end
  | KUnref k =>
      match fst x k with
      | Some n => if (n =? 0)%N then UB
                  else if (n =? 1)%N then Ok (kset (fst x) k None, sub64 (snd x) (key_size k))
                  else Ok (kset (fst x) k (Some (n - 1)%N), snd x)
      | None => UB
      end
  end.
Fixpoint kreplay (l : list kev) (x : (key -> option N) * N) : outcome ((key -> option N) * N) :=
  match l with
  | [] => Ok x
  | e :: r => let! y := kstep x e in kreplay r y
  end.

Definition deref (s : bpt) (r : rid) : outcome brec := match recs s r with Some x => Ok x | None => UB end.

(* _find on the whole tree: record address if the key is present *)
Definition bfind (s : bpt) (k : key) : outcome (option rid) :=
  match root s with
  | None => Ok None
  | Some t => let! f := find t EXACT k in Ok (snd f)
  end.

(* bptree_lookup, src/internal/bptree.c:277-290: data, size, reference count *)
Definition bptree_lookup (s : bpt) (k : key) : outcome (option (N * N * N)) :=
  let! f := bfind s k in
  match f with
  | None => Ok None
  | Some r => let! x := deref s r in Ok (Some (rdata x, rsize x, rref x))
  end.

(* overwriting of a record's data, src/internal/bptree.c:795-799, 918-921 *)
Definition overwrite (s : bpt) (r : rid) (data size : N) : outcome bpt :=
  let! x := deref s r in
  Ok {| root := root s; order := order s; meta := meta s; dsize := add64 (sub64 (dsize s) (rsize x)) size;
        nent := nent s; recs := rset (recs s) r (Some {| rdata := data; rsize := size; rref := rref x |});
        kobj := kobj s; bfresh := bfresh s |}.

(* _ref_record, src/internal/bptree.c:327-331 *)
Definition ref_record (h : N -> option brec) (r : rid) : outcome (N -> option brec) :=
  match h r with
  | Some x => Ok (rset h r (Some {| rdata := rdata x; rsize := rsize x; rref := wrap32 (rref x + 1) |}))
  | None => UB
  end.

(* _unref_record and _destroy_record, src/internal/bptree.c:318-339 *)
Definition unref_record (s : bpt) (r : rid) : outcome bpt :=
  let! x := deref s r in
  let n := wrap32 (rref x + (2 ^ 32 - 1)) in
  if (0 <? n)%N then
    Ok {| root := root s; order := order s; meta := meta s; dsize := dsize s; nent := nent s;
          recs := rset (recs s) r (Some {| rdata := rdata x; rsize := rsize x; rref := n |});
          kobj := kobj s; bfresh := bfresh s |}
  else
    Ok {| root := root s; order := order s; meta := sub64 (meta s) 24; dsize := sub64 (dsize s) (rsize x);
          nent := sub64 (nent s) 1; recs := rset (recs s) r None; kobj := kobj s; bfresh := bfresh s |}.

(* _make_record, src/internal/bptree.c:300-316 *)
Definition make_record (s : bpt) (data size : N) : bpt * rid :=
  ({| root := root s; order := order s; meta := add64 (meta s) 24; dsize := add64 (dsize s) size;
      nent := add64 (nent s) 1; recs := rset (recs s) (bfresh s) (Some {| rdata := data; rsize := size; rref := 0 |});
      kobj := kobj s; bfresh := (bfresh s + 1)%N |}, bfresh s).

(* _make_bkey followed by _create_root (src/internal/bptree.c:741-757) or _insert (759-782), for record [r] *)
Definition insert (s : bpt) (k : key) (r : rid) : outcome bpt :=
  let! km := make_bkey k (kobj s, meta s) in
  match root s with
  | None =>
      let! km2 := kreplay [KRef k] (fst km, add64 (snd km) (node_size (order s))) in
      let! h := ref_record (recs s) r in
      Ok {| root := Some (Leaf (bfresh s) None [k] [r]); order := order s; meta := snd km2; dsize := dsize s;
            nent := nent s; recs := h; kobj := fst km2; bfresh := (bfresh s + 1)%N |}
  | Some t =>
      let! cnt := nodes_needed (order s) t k in
      let! x := ins (order s) t k r (bfresh s) in
      (* _insert_into_new_root, src/internal/bptree.c:682-700 *)
      let '(t', lg, used) := match isplit x with
                             | None => (il x, ilog x, iused x)
                             | Some (bk, rt) => (Node [bk] [il x; rt], ilog x ++ [KRef bk], S (iused x))
                             end in
      (* assert(!node_list), l.778, and _get_node_from_list's assert, l.446 *)
      if negb (used =? cnt) then UB else
      let! km2 := kreplay (lg ++ ilate x) (fst km, add64 (snd km) (N.of_nat cnt * node_size (order s))) in
      let! h := ref_record (recs s) r in
      Ok {| root := Some t'; order := order s; meta := snd km2; dsize := dsize s; nent := nent s; recs := h;
            kobj := fst km2; bfresh := (bfresh s + 1)%N |}
  end.

(* bptree_add, src/internal/bptree.c:789-839 *)
Definition bptree_add (s : bpt) (k : key) (data size : N) : outcome bpt :=
  let! f := bfind s k in
  match f with
  | Some r => overwrite s r data size
  | None => let (s1, r) := make_record s data size in insert s1 k r
  end.

(* leaf->pointers[i] = rec in the leaf of [k], src/internal/bptree.c:857 *)
Fixpoint set_ptr (t : tree) (k : key) (r : rid) : outcome tree :=
  match t with
  | Leaf a nx ks rs =>
      let i := find_in (seq k) ks in
      if i <? length rs then Ok (Leaf a nx ks (list_set rs i r)) else UB
  | Node ks cs =>
      let i := child_idx k ks in
      let! c := (fix go (l : list tree) (j : nat) : outcome tree :=
                   match l, j with
                   | c :: _, O => set_ptr c k r
                   | _ :: l', S j' => go l' j'
                   | [], _ => UB
                   end) cs i in
      Ok (Node ks (list_set cs i c))
  end.

(* bptree_add_alias, src/internal/bptree.c:841-880: new state and return code *)
Definition bptree_add_alias (s : bpt) (k alias : key) (force : bool) : outcome (bpt * Z) :=
  let! f := bfind s k in
  match f with
  | None => Ok (s, (-1)%Z)
  | Some r =>
      let! fa := bfind s alias in
      match fa with
      | Some ra =>
          if (r =? ra)%N then Ok (s, 0%Z)
          else if negb force then Ok (s, (-1)%Z)
          else
            match root s with
            | None => UB
            | Some t =>
                let! h := ref_record (recs s) r in
                let! t' := set_ptr t alias r in
                let! s' := unref_record {| root := Some t'; order := order s; meta := meta s; dsize := dsize s;
                                           nent := nent s; recs := h; kobj := kobj s; bfresh := bfresh s |} ra in
                Ok (s', 0%Z)
            end
      | None => let! s' := insert s alias r in Ok (s', 0%Z)
      end
  end.

(* _delete_entry and _unref_record as called by bptree_del (src/internal/bptree.c:1320-1323) and bptree_update
   (927-930) *)
Definition remove (s : bpt) (k : key) (r : rid) : outcome bpt :=
  match root s with
  | None => UB
  | Some t =>
      let! x := del (order s) false t k r in
      let! y := (if dshrunk x then adjust_root (dt x) else Ok (Some (dt x), 0)) in
      let! km := kreplay (dfix x ++ dlog x) (kobj s, meta s) in
      unref_record {| root := fst y; order := order s;
                      meta := sub64 (snd km) (N.of_nat (dfreed x + snd y) * node_size (order s));
                      dsize := dsize s; nent := nent s; recs := recs s; kobj := fst km; bfresh := bfresh s |} r
  end.

(* bptree_del, src/internal/bptree.c:1310-1326 *)
Definition bptree_del (s : bpt) (k : key) : outcome bpt :=
  let! f := bfind s k in
  match f with
  | Some r => remove s k r
  | None => Ok s
  end.

(* bptree_update_action_t, src/include/internal/bptree.h:20-24 *)
Inductive bact := BSKIP | BWRITE | BREMOVE.

(* bptree_update, src/internal/bptree.c:882-938.  [cb] is the callback on the old data, size and reference count
   (None when the key is absent), giving the action and the final *data and *data_size (0 where the caller passed
   NULL).  A call without callback is [fun _ => (BWRITE, (data, size))] or [fun _ => (BREMOVE, (0, 0))].
   Simplification: the callback does not use the tree. *)
Definition bptree_update (s : bpt) (k : key) (cb : option (N * N * N) -> bact * (N * N)) : outcome bpt :=
  let! f := bfind s k in
  match f with
  | Some r =>
      let! x := deref s r in
      match cb (Some (rdata x, rsize x, rref x)) with
      | (BWRITE, (d, z)) => overwrite s r d z
      | (BREMOVE, _) => remove s k r
      | (BSKIP, _) => Ok s
      end
  | None =>
      match cb None with
      | (BWRITE, (d, z)) => bptree_add s k d z
      | _ => Ok s
      end
  end.

(* bptree_get_height, src/internal/bptree.c:151-165 *)
Fixpoint left_depth (t : tree) : nat :=
  match t with
  | Leaf _ _ _ _ => 0
  | Node _ [] => 0 (* not reached: pointers[0] of an internal node is valid *)
  | Node _ (c :: _) => S (left_depth c)
  end.
Definition bptree_get_height (s : bpt) : nat := match root s with None => 0 | Some t => left_depth t end.

(* bptree_get_size and bptree_get_entry_count, src/internal/bptree.c:167-181 *)
Definition bptree_get_size (s : bpt) : N * N * N := (add64 (meta s) (dsize s), meta s, dsize s).
Definition bptree_get_entry_count (s : bpt) : N := nent s.

(* ---------- iterators ---------- *)

(* all leaves, i.e. the memory in which a next pointer is resolved *)
Fixpoint leaves (t : tree) : list tree :=
  match t with
  | Leaf _ _ _ _ => [t]
  | Node _ cs => flat_map leaves cs
  end.
Definition leaf_addr (t : tree) : option addr := match t with Leaf a _ _ _ => Some a | Node _ _ => None end.
Definition leaf_at (t : tree) (a : addr) : outcome tree :=
  match List.find (fun l => match leaf_addr l with Some b => (a =? b)%N | None => false end) (leaves t) with
  | Some l => Ok l
  | None => UB
  end.

(* struct bptree_iter, src/internal/bptree.c:90-98; [ic] is the current leaf and index *)
Record biter := { im : lookup; istart : option key; iend : option key; ic : option (addr * nat) }.

(* bptree_iter_create, bptree_iter_create_prefix, src/internal/bptree.c:1382-1409; also bptree_iter_reset and bptree_iter_reset_prefix,
   1488-1505 *)
Definition bptree_iter_create (ks ke : option key) : biter := {| im := EXACT; istart := ks; iend := ke; ic := None |}.
Definition bptree_iter_create_prefix (p : key) : biter := {| im := PREFIX; istart := Some p; iend := None; ic := None |}.

(* _get_first_leaf_node, src/internal/bptree.c:1369-1380 *)
Fixpoint first_leaf (t : tree) : outcome tree :=
  match t with
  | Leaf _ _ _ _ => Ok t
  | Node _ [] => UB
  | Node _ (c :: _) => first_leaf c
  end.

(* The first half of bptree_iter_next, src/internal/bptree.c:1448-1462: the new (c, i) before the bound check.
   The leaf is returned together with its address. *)
Definition iter_move (s : bpt) (it : biter) : outcome (option (tree * nat)) :=
  match ic it with
  | Some (a, i) =>
      match root s with
      | None => UB
      | Some t =>
          let! l := leaf_at t a in
          match l with
          | Leaf _ nx ks _ =>
              if i + 1 <? length ks then Ok (Some (l, S i))
              else match nx with
                   | None => Ok None
                   | Some b => let! l' := leaf_at t b in Ok (Some (l', 0))
                   end
          | Node _ _ => UB
          end
      end
  | None =>
      match root s with
      | None => Ok None
      | Some t =>
          match istart it with
          | Some k => let! f := find t (im it) k in Ok (Some (fst (fst f), snd (fst f)))
          | None => let! l := first_leaf t in Ok (Some (l, 0))
          end
      end
  end.

(* bptree_iter_next, src/internal/bptree.c:1446-1486: the iterator and the returned key, data, size, ref_count *)
Definition bptree_iter_next (s : bpt) (it : biter) : outcome (biter * option (key * (N * N * N))) :=
  let stop := {| im := im it; istart := istart it; iend := iend it; ic := None |} in
  let! p := iter_move s it in
  match p with
  | None => Ok (stop, None)
  | Some (Leaf a _ ks rs, i) =>
      let! k := get ks i in
      let out := match im it with
                 | EXACT => match iend it with Some e => sgt k e | None => false end
                 | PREFIX => match istart it with Some p => negb (is_prefix p k) | None => false end
                 end in
      if out then Ok (stop, None)
      else
        let! r := get rs i in
        let! x := deref s r in
        Ok ({| im := im it; istart := istart it; iend := iend it; ic := Some (a, i) |},
            Some (k, (rdata x, rsize x, rref x)))
  | Some (Node _ _, _) => UB
  end.

(* bptree_iter, src/internal/bptree.c:1507-1523, and any caller's loop "until the key is NULL", at most [fuel]
   calls (None: the loop has not ended yet) *)
Fixpoint iter_all (fuel : nat) (s : bpt) (it : biter) : outcome (option (list (key * (N * N * N)))) :=
  match fuel with
  | O => Ok None
  | S f =>
      let! x := bptree_iter_next s it in
      match snd x with
      | None => Ok (Some [])
      | Some e => let! r := iter_all f s (fst x) in Ok (option_map (cons e) r)
      end
  end.

(* ---------- histories ---------- *)
Inductive bop :=
| BAdd (k : key) (d z : N)
| BAlias (k a : key) (force : bool)
| BUpdate (k : key) (cb : option (N * N * N) -> bact * (N * N))
| BDel (k : key).

(* one call: new state and return code *)
Definition bstep (s : bpt) (o : bop) : outcome (bpt * Z) :=
  match o with
  | BAdd k d z => let! s' := bptree_add s k d z in Ok (s', 0%Z)
  | BAlias k a f => bptree_add_alias s k a f
  | BUpdate k cb => let! s' := bptree_update s k cb in Ok (s', 0%Z)
  | BDel k => let! s' := bptree_del s k in Ok (s', 0%Z)
  end.

Fixpoint brun (s : bpt) (ops : list bop) : outcome (bpt * list Z) :=
  match ops with
  | [] => Ok (s, [])
  | o :: r => let! x := bstep s o in let! y := brun (fst x) r in Ok (fst y, snd x :: snd y)
  end.
