(* Iterators of the key-value store, src/resource/kvs.c:1055-1314. *)
From Verif Require Import Base Hash_Model Bptree_Model Kvs_Model KvsValue_Model.
Local Open Scope N_scope.

(* kvs_iter_method_t and the keys given, src/resource/kvs.c:78-81, 1094-1102 and 1257-1265 *)
Inductive bounds := Range (first last : option bytes) | Prefix (p : bytes).

(* _get_data, src/resource/kvs.c:110-116, as to NULL: only a reference can be NULL; here a NULL reference is one without items. *)
Definition null_ref (c : content) : bool := cref c && negb (cvec c) && match citems c with [] => true | _ => false end.
Definition get_data (c : content) : option content := if null_ref c then None else Some c.
(* sid_kvs_iter_current and sid_kvs_iter_current_key, src/resource/kvs.c:1104-1133 and 1192-1209, at a node with this key and value
   (0: NULL): what is returned as key and as data, with its size and flags *)
Definition value_at (h : list obj) (k : bytes) (p : N) : outcome (option bytes * option content) :=
  if p =? 0 then Ok (Some k, None) else let! c := hread h p in Ok (Some k, get_data c).

(* The hash table: iter->ht.current is the address of a node or NULL; a node that is not in the table is freed memory.  Keys
   are stored with their terminating NUL. *)
Definition hnode_at (t : htable) (a : N) : outcome hnode :=
  match List.find (fun n => nid n =? a) (hash_iter t) with Some n => Ok n | None => UB end.
(* _do_sid_kvs_iter_create and _do_sid_kvs_iter_reset, src/resource/kvs.c:1055-1092 and 1233-1255; memory suffices *)
Definition hiter_create (b : bounds) : option N := None.
(* hash_get_first, hash_get_next, src/resource/kvs.c:1217-1220 *)
Definition hiter_move (t : htable) (cur : option N) : outcome (option hnode) :=
  match cur with Some a => let! n := hnode_at t a in Ok (hash_get_next t n) | None => Ok (hash_get_first t) end.
(* sid_kvs_iter_next, src/resource/kvs.c:1211-1231: the iterator, the key and the data *)
Definition hiter_next (s : kv hash_backend) (cur : option N) : outcome (option N * (option bytes * option content)) :=
  let! m := hiter_move (bk s) cur in
  match m with
  | None => Ok (None, (None, None))
  | Some n => let! r := value_at (heap s) (removelast (nkey n)) (ndata n) in Ok (Some (nid n), r)
  end.

(* The B+ tree *)
Definition biter_create (b : bounds) : biter :=
  match b with Range f l => bptree_iter_create f l | Prefix p => bptree_iter_create_prefix p end.
Definition biter_next (s : kv bptree_backend) (it : biter) : outcome (biter * (option bytes * option content)) :=
  let! (it, e) := bptree_iter_next (bk s) it in
  match e with
  | None => Ok (it, (None, None))
  | Some (k, (p, _, _)) => let! r := value_at (heap s) k p in Ok (it, r)
  end.

(* kv_store_num_entries, src/resource/kvs.c:1284-1298 *)
Definition hash_entries (s : kv hash_backend) : N := hash_get_entry_count (bk s).
Definition bptree_entries (s : kv bptree_backend) : N := bptree_get_entry_count (bk s).

(* The loop of all callers, while ((value = sid_kvs_iter_next(iter, &size, &key, &flags))) ..., src/resource/ubr.c:929, 1369 and 4691;
   edits: what the body does with the store in its first, second, ... turn.  At most fuel calls. *)
Section Walk.
  Context {BE : backend} {I : Type} (next : kv BE -> I -> outcome (I * (option bytes * option content))).
  Fixpoint walk (fuel : nat) (s : kv BE) (it : I) (edits : list (list kop)) : outcome (option (list (bytes * content) * kv BE * I)) :=
    match fuel with
    | O => Ok None
    | S f =>
      let! (it, e) := next s it in
      match e with
      | (Some k, Some c) =>
        let! (s, _) := krun BE s (hd [] edits) in
        let! r := walk f s it (tl edits) in
        Ok (option_map (fun x => ((k, c) :: fst (fst x), snd (fst x), snd x)) r)
      | _ => Ok (Some ([], s, it))
      end
    end.
End Walk.

(* sid_kvs_iter_current_size, src/resource/kvs.c:1135-1190, of the value at address v: int_size, int_data_size, ext_size,
   ext_data_size.  sizeof(struct kv_store_value) and sizeof(struct iovec) are 16, sizeof(uintptr_t) is 8. *)
Definition current_size (m : list (option blk)) (v : nat) : outcome (nat * nat * nat * nat) :=
  match block m v with
  | Some (Val x) =>
    (let! (iov_size, data_size) :=
       (if fvec x then
          let! l := (if fref x then match vptr x with Some (b, O) => items_at m b (vsz x) | _ => UB end
                     else if vsz x <=? length (varr x) then Ok (firstn (vsz x) (varr x)) else UB)%nat in
          Ok (vsz x * 16, total l)
        else Ok (0, vsz x))%nat in
     let '(i, e) := (if fint x then (data_size, 0) else (0, data_size))%nat in
     if fref x then Ok (i + (16 + 8), i, e + iov_size, e) else Ok (i + (16 + iov_size), i, e, e))%nat
  | _ => UB
  end.
