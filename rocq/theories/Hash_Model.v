(* Model of src/internal/hash.c: chained hash table. *)
From Verif Require Import Base.
Local Open Scope N_scope.

(* Data is an opaque pointer; 0 is NULL. *)
Notation ptr := N (only parsing).

(* struct hash_node, src/internal/hash.c:17-23.  [nid] is the node's address (used only to tell nodes apart);
   [next] is represented by the position in the chain list. *)
Record hnode := { nid : N; nkey : bytes; ndata : ptr; ndata_len : N }.

(* struct hash_table, src/internal/hash.c:25-29.  [hfresh] is the allocator's next unused address. *)
Record htable := { num_nodes : N; num_slots : N; slots : list (list hnode); hfresh : N }.

(* _nums, src/internal/hash.c:32-43 *)
Definition nums : list N :=
 [1;   14;  110; 25;  97;  174; 132; 119; 138; 170; 125; 118; 27;  233; 140; 51;  87;  197; 177; 107; 234; 169; 56;  68;
	30;  7;   173; 73;  188; 40;  36;  65;  49;  213; 104; 190; 57;  211; 148; 223; 48;  115; 15;  2;   67;  186; 210; 28;
	12;  181; 103; 70;  22;  58;  75;  78;  183; 167; 238; 157; 124; 147; 172; 144; 176; 161; 141; 86;  60;  66;  128; 83;
	156; 241; 79;  46;  168; 198; 41;  254; 178; 85;  253; 237; 250; 154; 133; 88;  35;  206; 95;  116; 252; 192; 54;  221;
	102; 218; 255; 240; 82;  106; 158; 201; 61;  3;   89;  9;   42;  155; 159; 93;  166; 80;  50;  34;  175; 195; 100; 99;
	26;  150; 16;  145; 4;   33;  8;   189; 121; 64;  77;  72;  208; 245; 130; 122; 143; 55;  105; 134; 29;  164; 185; 194;
	193; 239; 101; 242; 5;   171; 126; 11;  74;  59;  137; 228; 108; 191; 232; 139; 6;   24;  81;  20;  127; 17;  91;  92;
	251; 151; 225; 207; 21;  98;  113; 112; 84;  226; 18;  214; 199; 187; 13;  32;  94;  220; 224; 212; 247; 204; 196; 43;
	249; 236; 45;  244; 111; 182; 153; 136; 129; 90;  217; 202; 19;  165; 231; 71;  230; 142; 96;  227; 62;  179; 246; 114;
	162; 53;  160; 215; 205; 180; 47;  109; 44;  38;  31;  149; 135; 0;   216; 52;  63;  23;  37;  69;  39;  117; 146; 184;
	163; 200; 222; 235; 248; 243; 219; 10;  152; 131; 123; 229; 203; 76;  120; 209].

(* loop body and loop of _hash, src/internal/hash.c:59-75; unsigned long is 64 bits *)
Definition hash_step (h : N) (c : byte) : N :=
  let h := wrap64 (wrap64 (N.shiftl h 4) + nth (N.to_nat (byteN c)) nums 0) in
  let g := N.land h (N.shiftl 15 16) in
  if g =? 0 then h else N.lxor (N.lxor h (N.shiftr g 16)) (N.shiftr g 5).
Definition hash_fn (key : bytes) : N := fold_left hash_step key 0.

(* rounding loop of hash_create, src/internal/hash.c:87-88; 32-bit shift.  None: fuel exhausted. *)
Fixpoint round_up (fuel : nat) (new_size size_hint : N) : option N :=
  match fuel with
  | O => None
  | S f => if new_size <? size_hint then round_up f (wrap32 (N.shiftl new_size 1)) size_hint else Some new_size
  end.

(* hash_create, src/internal/hash.c:77-100, allocation assumed to succeed.  64 rounds are enough whenever the
   loop ends at all (Hash_Proofs.round_up_ok). *)
Definition hash_create (size_hint : N) : option htable :=
  match round_up 64 16 size_hint with
  | None => None
  | Some n => Some {| num_nodes := 0; num_slots := n; slots := repeat [] (N.to_nat n); hfresh := 1 |}
  end.

(* slot index: _hash(key, key_len) & (num_slots - 1), src/internal/hash.c:123 *)
Definition slot_of (t : htable) (key : bytes) : nat :=
  N.to_nat (N.land (hash_fn key) (num_slots t - 1)).

Definition chain_at (t : htable) (key : bytes) : list hnode := nth (slot_of t key) (slots t) [].

Fixpoint bytes_eqb (a b : bytes) : bool :=
  match a, b with
  | [], [] => true
  | x :: a', y :: b' => Ascii.eqb x y && bytes_eqb a' b'
  | _, _ => false
  end.

(* comparison of key_len and memcmp in _find, src/internal/hash.c:127-131 *)
Definition key_match (key : bytes) (n : hnode) : bool :=
  if negb (List.length (nkey n) =? List.length key)%nat then false else bytes_eqb key (nkey n).

(* _find, src/internal/hash.c:121-135: the first node with the key *)
Definition hfind (t : htable) (key : bytes) : option hnode := List.find (key_match key) (chain_at t key).

(* apply [f] to the first node satisfying [p], replacing it by the list [f n] *)
Fixpoint on_first (p : hnode -> bool) (f : hnode -> list hnode) (c : list hnode) : list hnode :=
  match c with
  | [] => []
  | n :: r => if p n then f n ++ r else n :: on_first p f r
  end.

Definition with_chain (t : htable) (key : bytes) (c : list hnode) (cnt : N) (fresh : N) : htable :=
  {| num_nodes := cnt; num_slots := num_slots t; slots := list_set (slots t) (slot_of t key) c; hfresh := fresh |}.

(* hash_lookup, src/internal/hash.c:137-150: data (NULL if absent) and *data_len *)
Definition hash_lookup (t : htable) (key : bytes) : ptr * N :=
  match hfind t key with Some n => (ndata n, ndata_len n) | None => (0, 0) end.

(* _do_hash_insert, src/internal/hash.c:152-169: append at the end of the chain (allocation assumed to succeed).
   num_nodes is an unsigned. *)
Definition do_insert (t : htable) (key : bytes) (data : ptr) (len : N) : htable :=
  with_chain t key (chain_at t key ++ [{| nid := hfresh t; nkey := key; ndata := data; ndata_len := len |}])
             (wrap32 (num_nodes t + 1)) (hfresh t + 1).

(* hash_add, src/internal/hash.c:171-181: note that an existing node keeps its data_len. *)
Definition hash_add (t : htable) (key : bytes) (data : ptr) (len : N) : htable :=
  match hfind t key with
  | Some _ =>
      with_chain t key
        (on_first (key_match key)
           (fun n => [{| nid := nid n; nkey := nkey n; ndata := data; ndata_len := ndata_len n |}]) (chain_at t key))
        (num_nodes t) (hfresh t)
  | None => do_insert t key data len
  end.

(* _do_hash_del, src/internal/hash.c:183-190 *)
Definition do_del (t : htable) (key : bytes) (p : hnode -> bool) : htable :=
  with_chain t key (on_first p (fun _ => []) (chain_at t key)) (wrap32 (num_nodes t + (2 ^ 32 - 1))) (hfresh t).

(* hash_del, src/internal/hash.c:192-198 *)
Definition hash_del (t : htable) (key : bytes) : htable :=
  match hfind t key with Some _ => do_del t key (key_match key) | None => t end.

(* the test in _find_with_data, src/internal/hash.c:209-214.  [memeq p q len] is !memcmp(p, q, len). *)
Definition data_match (memeq : ptr -> ptr -> N -> bool) (key : bytes) (data : ptr) (len : N) (n : hnode) : bool :=
  key_match key n && negb (ndata n =? 0) && (ndata_len n =? len) && memeq data (ndata n) len.

(* hash_add_allow_multiple, src/internal/hash.c:221-243: prepend *)
Definition hash_add_allow_multiple (t : htable) (key : bytes) (data : ptr) (len : N) : htable :=
  with_chain t key ({| nid := hfresh t; nkey := key; ndata := data; ndata_len := len |} :: chain_at t key)
             (wrap32 (num_nodes t + 1)) (hfresh t + 1).

(* hash_lookup_with_data, src/internal/hash.c:249-256 *)
Definition hash_lookup_with_data memeq (t : htable) (key : bytes) (data : ptr) (len : N) : ptr :=
  match List.find (data_match memeq key data len) (chain_at t key) with Some n => ndata n | None => 0 end.

(* hash_del_with_data, src/internal/hash.c:262-270 *)
Definition hash_del_with_data memeq (t : htable) (key : bytes) (data : ptr) (len : N) : htable :=
  match List.find (data_match memeq key data len) (chain_at t key) with
  | Some _ => do_del t key (data_match memeq key data len)
  | None => t
  end.

(* hash_lookup_with_count, src/internal/hash.c:284-315.  [key] is the C string; the key looked up is its bytes
   followed by the NUL, whatever key_len says.  Result: data, *data_len, *count. *)
Definition hash_lookup_with_count (t : htable) (cstr : bytes) : ptr * N * N :=
  let key := cstr ++ [NUL] in
  let m := List.filter (key_match key) (chain_at t key) in
  match m with
  | n :: _ => (ndata n, ndata_len n, N.of_nat (List.length m))
  | [] => (0, 0, 0)
  end.

(* hash_get_entry_count, src/internal/hash.c:317-320 *)
Definition hash_get_entry_count (t : htable) : N := num_nodes t.

(* hash_iter, src/internal/hash.c:322-332: the nodes in the order the callback sees them *)
Definition hash_iter (t : htable) : list hnode := List.concat (slots t).

(* hash_wipe, src/internal/hash.c:334-339 *)
Definition hash_wipe (t : htable) : htable :=
  {| num_nodes := 0; num_slots := num_slots t; slots := repeat [] (List.length (slots t)); hfresh := hfresh t |}.

(* _next_slot, src/internal/hash.c:357-366 *)
Definition next_slot (t : htable) (s : nat) : option hnode :=
  hd_error (List.concat (List.map (fun c => match c with n :: _ => [n] | [] => [] end) (List.skipn s (slots t)))).

(* hash_get_first, src/internal/hash.c:368-371 *)
Definition hash_get_first (t : htable) : option hnode := next_slot t 0.

(* n->next: the node after [n] in the chain that contains it *)
Fixpoint succ_in (i : N) (c : list hnode) : option hnode :=
  match c with
  | [] => None
  | n :: r => if nid n =? i then hd_error r else succ_in i r
  end.
Definition node_next (t : htable) (n : hnode) : option hnode :=
  hd_error (List.concat (List.map (fun c => match succ_in (nid n) c with Some m => [m] | None => [] end) (slots t))).

(* hash_get_next, src/internal/hash.c:373-378 *)
Definition hash_get_next (t : htable) (n : hnode) : option hnode :=
  match node_next t n with
  | Some m => Some m
  | None => next_slot t (slot_of t (nkey n) + 1)
  end.

(* A caller's walk with hash_get_first/hash_get_next, limited to [fuel] nodes. *)
Fixpoint hash_walk (fuel : nat) (t : htable) (cur : option hnode) : list hnode :=
  match fuel, cur with
  | S f, Some n => n :: hash_walk f t (hash_get_next t n)
  | _, _ => []
  end.

(* hash_update_action_t, src/include/internal/hash.h *)
Inductive hact := HWRITE | HREMOVE | HSKIP.

(* hash_update, src/internal/hash.c:380-425.  [cb] is the callback applied to the old data (None if absent); it
   returns the action together with the contents of *data and *data_len after it ran ((0,0) when the caller passed
   NULL pointers).  Simplification: the callback does not itself modify the table.  hash_update without a callback
   is [cb := fun _ => (HWRITE, (data, len))] or [(HREMOVE, (0,0))]. *)
Definition hash_update (t : htable) (key : bytes) (cb : option (ptr * N) -> hact * (ptr * N)) : htable :=
  let old := match hfind t key with Some n => Some (ndata n, ndata_len n) | None => None end in
  match cb old with
  | (HWRITE, (d, l)) =>
      match hfind t key with
      | Some _ =>
          with_chain t key
            (on_first (key_match key)
               (fun n => [{| nid := nid n; nkey := nkey n; ndata := d; ndata_len := l |}]) (chain_at t key))
            (num_nodes t) (hfresh t)
      | None => do_insert t key d l
      end
  | (HREMOVE, _) => hash_del t key
  | (HSKIP, _) => t
  end.

(* A caller's history. *)
Inductive hop :=
| HAdd (k : bytes) (d : ptr) (l : N)
| HDel (k : bytes)
| HUpdate (k : bytes) (cb : option (ptr * N) -> hact * (ptr * N))
| HWipe
| HAddMulti (k : bytes) (d : ptr) (l : N)
| HDelData (k : bytes) (d : ptr) (l : N).

Definition hstep memeq (t : htable) (o : hop) : htable :=
  match o with
  | HAdd k d l => hash_add t k d l
  | HDel k => hash_del t k
  | HUpdate k cb => hash_update t k cb
  | HWipe => hash_wipe t
  | HAddMulti k d l => hash_add_allow_multiple t k d l
  | HDelData k d l => hash_del_with_data memeq t k d l
  end.

Definition hrun memeq (t : htable) (ops : list hop) : htable := fold_left (hstep memeq) ops t.
