(* What the properties on iterators of the key-value store say. *)
From Verif Require Import Base Hash_Model Bptree_Model Bptree_Spec Kvs_Model Kvs_Spec KvsValue_Model KvsValue_Spec KvsIter_Model.
From Coq Require Import Sorted.

(* The keys an iteration is about; a first key has to be stored. *)
Definition within (b : bounds) (k : bytes) : Prop :=
  match b with
  | Range f l => match f with Some f => str_le f k | None => True end /\ match l with Some l => str_le k l | None => True end
  | Prefix p => exists r, k = p ++ r
  end.
Definition begins (m : cmap) (b : bounds) : Prop := match b with Range (Some f) _ => m f <> None | _ => True end.
(* l has every key of the map that is asked for, once, with its value *)
Definition covers (m : cmap) (Q : bytes -> Prop) (l : list (bytes * content)) : Prop :=
  NoDup (map fst l) /\ forall k c, In (k, c) l <-> m k = Some c /\ Q k.
Definition in_order (l : list (bytes * content)) : Prop := StronglySorted str_lt (map fst l).
(* No value is a NULL reference. *)
Definition solid (m : cmap) : Prop := forall k c, m k = Some c -> ~ (cref c = true /\ cvec c = false /\ citems c = []).

(* A new value for a key that is there. *)
Definition overwrites (m : cmap) (o : kop) : Prop :=
  match o with
  | KSet k c mg None None => k <> [] /\ m (canonicalize_key k) <> None /\ ~ (cref c = true /\ cvec c = false /\ citems c = [])
  | KGet _ => True
  | _ => False
  end.

(* The store after this history above each backend *)
Definition hash_store (hint : N) (ops : list kop) (P : kv hash_backend -> Prop) : Prop :=
  exists t s rs, hash_create hint = Some t /\ krun hash_backend (Build_kv hash_backend t [] None None) ops = Ok (s, rs) /\ P s.
Definition bptree_store (order : nat) (ops : list kop) (P : kv bptree_backend -> Prop) : Prop :=
  exists t s rs, bptree_create order = Some t /\ krun bptree_backend (Build_kv bptree_backend t [] None None) ops = Ok (s, rs) /\ P s.

(* Whatever the loop does with keys that are there, these keys are visited in this order, each with the value it has at that time,
   and the store is in the end as if its calls had been made without the iteration. *)
Definition visits {BE I} (next : kv BE -> I -> outcome (I * (option bytes * option content))) (s : kv BE) (m : cmap) (it it' : I) (ks : list bytes) : Prop :=
  forall edits fuel, Forall (Forall (overwrites m)) edits -> (length ks < fuel)%nat ->
  exists l s' rs, walk next fuel s it edits = Ok (Some (l, s', it')) /\ map fst l = ks /\ krun BE s (List.concat (firstn (length ks) edits)) = Ok (s', rs) /\
    forall i k c, nth_error l i = Some (k, c) -> plain_run m (List.concat (firstn i edits)) k = Some c.

(* Bytes of a block *)
Definition block_bytes (b : option blk) : nat :=
  match b with
  | None => 0
  | Some (Raw bs) => length bs
  | Some (Iov l) => 16 * length l
  | Some (Val v) => 16 + (if fref v then 8 else 16 * length (varr v) + length (vraw v))
  end.
Definition all_bytes (l : list (option blk)) : nat := list_sum (map block_bytes l).
Definition is_vector (src : source) : bool := match src with Vector _ _ => true | Scalar _ _ => false end.
Definition count (src : source) : nat := match src with Vector _ cnt => cnt | Scalar _ _ => 0 end.
