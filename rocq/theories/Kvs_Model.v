(* The key-value store resource, src/resource/kvs.c, above its hash table or B+ tree. *)
From Verif Require Import Base Hash_Model Bptree_Model Bptree_Spec.
Local Open Scope N_scope.

(* What a kv_store_value holds (src/resource/kvs.c:36-41): the VECTOR, REF and AUTOFREE bits of ext_flags
   (src/include/resource/kvs.h:26-29) and the bytes; a vector has any number of items, anything else exactly one.
   The memory layout behind the bytes is in Kvs_Value_Model.v; here a reference stands for the bytes referred to. *)
Record content := { cvec : bool; cref : bool; cauto : bool; citems : list bytes }.

(* value->size: the number of items of a vector, else the number of bytes. *)
Definition csize (c : content) : N :=
  if cvec c then N.of_nat (length (citems c)) else N.of_nat (length (List.concat (citems c))).

(* _create_kv_store_value, src/resource/kvs.c:213-330, as to contents: only form F (vector, copied, merged) changes
   the shape. *)
Definition made_content (c : content) (merge : bool) : content :=
  if cvec c && negb (cref c) && merge
  then {| cvec := false; cref := cref c; cauto := cauto c; citems := [List.concat (citems c)] |} else c.

(* value_size, src/resource/kvs.c:225, 265, 279, 303, 312 (sizeof struct kv_store_value is 16). *)
Definition vsize (c : content) (merge : bool) : N :=
  let bytes := N.of_nat (length (List.concat (citems c))) in
  if cref c then 24
  else if cvec c then if merge then 16 + bytes else 16 + 16 * N.of_nat (length (citems c)) + bytes
  else 16 + bytes.

(* One allocated kv_store_value: contents and whether it is still allocated.  Its address is its index in the heap plus one;
   0 is NULL.  Simplification: allocation always succeeds. *)
Notation obj := (content * bool)%type.
Notation vptr := N (only parsing).

Definition hobj (h : list obj) (p : vptr) : option obj := if p =? 0 then None else nth_error h (N.to_nat p - 1).
Definition hput (h : list obj) (p : vptr) (o : obj) : list obj := list_set h (N.to_nat p - 1) o.
Definition halloc (h : list obj) (c : content) : list obj * vptr := (h ++ [(c, true)], N.of_nat (length h) + 1).
(* _destroy_kv_store_value, src/resource/kvs.c:118-162: NULL is ignored; freeing what is not allocated is undefined. *)
Definition hfree (h : list obj) (p : vptr) : outcome (list obj) :=
  if p =? 0 then Ok h
  else match hobj h p with Some (c, true) => Ok (hput h p (c, false)) | _ => UB end.
(* Looking at a value: undefined once it is freed. *)
Definition hread (h : list obj) (p : vptr) : outcome content :=
  match hobj h p with Some (c, true) => Ok c | _ => UB end.

(* The backend: looking a key up gives data, size and number of names of its record; an update is given the action its
   callback decided on for the record found (src/internal/hash.c:380-425, src/internal/bptree.c:884-915). *)
Record backend := {
  bst : Type;
  blook : bst -> bytes -> outcome (option (N * N * N));
  bupd : bst -> bytes -> bact * (N * N) -> outcome bst;
  balias : bst -> bytes -> bytes -> bool -> outcome (bst * Z) }.

(* The three backends: records with their names (the specification proved of the B+ tree), the hash table (keys include
   their terminating NUL; it has no aliases, src/resource/kvs.c:630), and the B+ tree. *)
Definition spec_backend : backend :=
  {| bst := list grp;
     blook := fun gs k => Ok (option_map out (glookup k gs));
     bupd := fun gs k a => Ok (fst (gstep gs (BUpdate k (fun _ => a))));
     balias := fun gs k a f => Ok (gstep gs (BAlias k a f)) |}.
Definition hact_of (a : bact) : hact := match a with BWRITE => HWRITE | BREMOVE => HREMOVE | BSKIP => HSKIP end.
Definition hash_backend : backend :=
  {| bst := htable;
     blook := fun t k => let e := hash_lookup t (k ++ [NUL]) in Ok (if fst e =? 0 then None else Some (fst e, snd e, 1));
     bupd := fun t k a => Ok (hash_update t (k ++ [NUL]) (fun _ => (hact_of (fst a), snd a)));
     balias := fun t _ _ _ => Ok (t, (- ENOTSUP)%Z) |}.
Definition bptree_backend : backend :=
  {| bst := bpt;
     blook := bptree_lookup;
     bupd := fun t k a => bptree_update t k (fun _ => a);
     balias := bptree_add_alias |}.

(* isspace in the C locale. *)
Definition isspace (c : byte) : bool := let n := byteN c in (n =? 32) || ((9 <=? n) && (n <=? 13)).
(* _canonicalize_key, src/resource/kvs.c:489-498 *)
Fixpoint canonicalize_key (k : bytes) : bytes :=
  match k with c :: t => if isspace c then canonicalize_key t else k | [] => [] end.

(* struct kv_rollback_arg and struct kv_unset_arg, src/resource/kvs.c:43-54 *)
Record rbent := { rkey : bytes; rval : vptr; rvsize : N; rhas : bool; ris : bool }.
Record ubent := { ukey : bytes; uhas : bool }.

(* Callbacks (src/include/resource/kvs.h:53-70).  For a set: given old and new contents, returns its code, the contents it leaves
   in the spec and whether it set the MERGE op flag.  For an unset: given the old contents, returns its code. *)
Definition setcb := option content -> content -> Z * content * bool.
Definition unsetcb := option content -> Z.

Section Store.
  Variable BE : backend.

  (* struct kv_store, src/resource/kvs.c:25-34, with the heap of values *)
  Record kv := { bk : bst BE; heap : list obj; rb : option (list rbent); ub : option (list ubent) }.
  Definition with_bk s x := {| bk := x; heap := heap s; rb := rb s; ub := ub s |}.
  Definition with_heap s x := {| bk := bk s; heap := x; rb := rb s; ub := ub s |}.
  Definition with_rb s x := {| bk := bk s; heap := heap s; rb := x; ub := ub s |}.
  Definition with_ub s x := {| bk := bk s; heap := heap s; rb := rb s; ub := x |}.

  (* what a lookup finds, as data pointer (0 if none), size, names *)
  Definition found (x : option (N * N * N)) : N * N * N := match x with Some y => y | None => (0, 0, 0) end.
  Definition content_of (h : list obj) (p : vptr) : outcome (option content) :=
    if p =? 0 then Ok None else let! c := hread h p in Ok (Some c).

  Definition content_eq_dec (a b : content) : {a = b} + {a <> b}.
  Proof. decide equality; try apply bool_dec; repeat apply list_eq_dec; apply ascii_dec. Defined.

  (* The callback part of _update_fn, src/resource/kvs.c:358-406: code, heap, new value, its size.  "Changed" is a
     comparison of pointers, sizes and flags in the code, of contents here. *)
  Definition run_setcb (h : list obj) (fn : option setcb) (old nw : vptr) (nsz : N) : outcome (Z * list obj * vptr * N) :=
    match fn with
    | None => Ok (1%Z, h, nw, nsz)
    | Some fn =>
        let! oc := content_of h old in
        let! nc := hread h nw in
        let '(r, c', op) := fn oc nc in
        if (0 <? r)%Z && (op || negb (if content_eq_dec c' nc then true else false)) then
          if cref c' && (csize c' =? csize nc) && negb op && Bool.eqb (cvec c') (cvec nc) &&
             Bool.eqb (cref c') (cref nc) && Bool.eqb (cauto c') (cauto nc)
          then Ok (r, hput h nw (c', true), nw, nsz)
          else
            let (h, nw') := halloc h (made_content c' op) in
            let! h := hfree h nw in
            Ok (r, h, nw', vsize c' op)
        else Ok (r, h, nw, nsz)
    end.

  (* _set_value with _update_fn, src/resource/kvs.c:332-449 and 500-533.  Result: state, *new_value after, and
     archive_arg.kv_store_value with its size. *)
  Definition set_value (s : kv) (k : bytes) (nw : vptr) (nsz : N) (fn : option setcb) (has is : bool)
    : outcome (kv * vptr * (vptr * N)) :=
    let! l := blook BE (bk s) k in
    let '(old, osz, _) := found l in
    let! (r, h, nw, nsz) := run_setcb (heap s) fn old nw nsz in
    if (r =? 0)%Z then
      let! h := hfree h nw in
      let! b := bupd BE (bk s) k (BSKIP, (0, 0)) in
      Ok (with_bk (with_heap s h) b, 0, (0, 0))
    else
      let s := with_heap s h in
      let! s := match rb s with
                | Some l => Ok (with_rb s (Some (l ++ [{| rkey := k; rval := old; rvsize := osz; rhas := has; ris := is |}])))
                | None => if has then Ok s else let! h := hfree h old in Ok (with_heap s h)
                end in
      let! b := bupd BE (bk s) k (BWRITE, (nw, nsz)) in
      Ok (with_bk s b, nw, if has then (old, osz) else (0, 0)).

  (* sid_kvs_set, src/resource/kvs.c:537-613: code and *stored_value. *)
  Definition sid_kvs_set (s : kv) (k : bytes) (c : content) (merge : bool) (arch : option bytes) (fn : option setcb)
    : outcome (kv * Z * vptr) :=
    match k with
    | [] => Ok (s, (- EINVAL)%Z, 0)
    | _ =>
        let (h, nw) := halloc (heap s) (made_content c merge) in
        let s := with_heap s h in
        let ck := canonicalize_key k in
        let has := match arch with Some _ => true | None => false end in
        let! (s, nw, (av, asz)) := set_value s ck nw (vsize c merge) fn has false in
        match arch with
        | Some a =>
            if av =? 0 then Ok (s, 0%Z, nw)
            else
              let! (s, _, _) := set_value s (canonicalize_key a) av asz None false true in
              Ok (s, 0%Z, nw)
        | None => Ok (s, 0%Z, nw)
        end
    end.

  (* sid_kvs_add_alias, src/resource/kvs.c:615-633 *)
  Definition sid_kvs_add_alias (s : kv) (k a : bytes) (force : bool) : outcome (kv * Z) :=
    match k, a with
    | [], _ | _, [] => Ok (s, (- EINVAL)%Z)
    | _, _ =>
        let! (b, r) := balias BE (bk s) (canonicalize_key k) (canonicalize_key a) force in
        Ok (with_bk s b, r)
    end.

  (* sid_kvs_get, src/resource/kvs.c:635-678: the contents found, or the error. *)
  Definition sid_kvs_get (s : kv) (k : bytes) : outcome (option content * Z) :=
    match k with
    | [] => Ok (None, (- EINVAL)%Z)
    | _ =>
        let! l := blook BE (bk s) (canonicalize_key k) in
        let '(p, _, _) := found l in
        if p =? 0 then Ok (None, (- ENOENT)%Z)
        else let! c := hread (heap s) p in Ok (Some c, 0%Z)
    end.

  (* _unset_value with _unset_fn, src/resource/kvs.c:680-735 and 777-795.  [ubuf] is relay->unset_buf; the result carries
     archive_arg.  Removal is decided by any non-zero code, release of the old value only by 1. *)
  Definition unset_value (s : kv) (k : bytes) (fn : option unsetcb) (has ubuf : bool) : outcome (kv * (vptr * N)) :=
    let! l := blook BE (bk s) k in
    let '(old, osz, refs) := found l in
    let! r := match fn with
              | Some fn => let! oc := content_of (heap s) old in Ok (fn oc)
              | None => Ok 1%Z
              end in
    if (r =? 1)%Z then
      let! (s, r) := (if ubuf
                      then Ok (with_ub s (match ub s with
                                          | Some l => Some (l ++ [{| ukey := k; uhas := has |}])
                                          | None => None
                                          end), 0%Z)
                      else if (refs =? 1) && negb has then let! h := hfree (heap s) old in Ok (with_heap s h, r)
                      else Ok (s, r)) in
      let! b := bupd BE (bk s) k (if (r =? 0)%Z then BSKIP else BREMOVE, (0, 0)) in
      Ok (with_bk s b, if has then (old, osz) else (0, 0))
    else
      let! b := bupd BE (bk s) k (if (r =? 0)%Z then BSKIP else BREMOVE, (0, 0)) in
      Ok (with_bk s b, (0, 0)).

  (* sid_kvs_unset, src/resource/kvs.c:797-846.  Its relay has no rollback_buf, so the archive copy is written outside the
     transaction. *)
  Definition sid_kvs_unset (s : kv) (k : bytes) (arch : option bytes) (fn : option unsetcb) : outcome (kv * Z) :=
    match k with
    | [] => Ok (s, (- EINVAL)%Z)
    | _ =>
        let has := match arch with Some _ => true | None => false end in
        let ubuf := match ub s with Some _ => true | None => false end in
        let! (s, (av, asz)) := unset_value s (canonicalize_key k) fn has ubuf in
        match arch with
        | Some a =>
            if av =? 0 then Ok (s, 0%Z)
            else
              let! (s', _, _) := set_value (with_rb s None) (canonicalize_key a) av asz None false true in
              Ok (with_rb s' (rb s), 0%Z)
        | None => Ok (s, 0%Z)
        end
    end.

  (* _kv_store_trans_rollback_value with _rollback_fn, src/resource/kvs.c:848-875 and 923-950 *)
  Definition rollback_value (s : kv) (e : rbent) : outcome kv :=
    let! l := blook BE (bk s) (rkey e) in
    let '(cur, _, _) := found l in
    if ((rval e =? 0) && (cur =? 0)) || (negb (rval e =? 0) && (cur =? rval e)) then Ok s
    else if cur =? 0 then let! h := hfree (heap s) (rval e) in Ok (with_heap s h)
    else
      let! h := (if ris e then Ok (heap s) else hfree (heap s) cur) in
      let! b := bupd BE (bk s) (rkey e) (if rval e =? 0 then (BREMOVE, (0, 0)) else (BWRITE, (rval e, rvsize e))) in
      Ok (with_bk (with_heap s h) b).

  (* _kv_store_trans_unset_value, src/resource/kvs.c:952-960 *)
  Definition trans_unset (s : kv) (e : ubent) : outcome kv :=
    let! (s, _) := unset_value s (ukey e) None (uhas e) false in Ok s.

  (* sid_kvs_transaction_active, src/resource/kvs.c:962-972 *)
  Definition trans_active (s : kv) : bool := match rb s with Some _ => true | None => false end.

  (* sid_kvs_transaction_begin, src/resource/kvs.c:974-1001 *)
  Definition trans_begin (s : kv) : kv * Z :=
    if trans_active s then (s, (- EBUSY)%Z) else (with_ub (with_rb s (Some [])) (Some []), 0%Z).

  Section Fold.
    Context {A : Type} (f : kv -> A -> outcome kv).
    Fixpoint ofold (s : kv) (l : list A) : outcome kv :=
      match l with [] => Ok s | x :: t => let! s := f s x in ofold s t end.
  End Fold.

  (* sid_kvs_transaction_end, src/resource/kvs.c:1003-1053 *)
  Definition trans_end (s : kv) (rollback : bool) : outcome kv :=
    match rb s with
    | None => Ok s
    | Some rbs =>
        let ubs := match ub s with Some l => l | None => [] end in
        let! s := (if rollback then Ok s else ofold trans_unset s ubs) in
        let s := with_ub s None in
        let! s := (if rollback then ofold rollback_value s rbs
                   else ofold (fun s e => if rhas e then Ok s
                                          else let! h := hfree (heap s) (rval e) in Ok (with_heap s h)) s rbs) in
        Ok (with_rb s None)
    end.

  (* A caller's history and what the caller sees: code, contents got. *)
  Inductive kop :=
  | KSet (k : bytes) (c : content) (merge : bool) (arch : option bytes) (fn : option setcb)
  | KUnset (k : bytes) (arch : option bytes) (fn : option unsetcb)
  | KGet (k : bytes)
  | KAlias (k a : bytes) (force : bool)
  | KBegin
  | KEnd (rollback : bool)
  | KActive.

  Definition kres := (Z * option content)%type.

  Definition kstep (s : kv) (o : kop) : outcome (kv * kres) :=
    match o with
    | KSet k c m a fn => let! (s, r, _) := sid_kvs_set s k c m a fn in Ok (s, (r, None))
    | KUnset k a fn => let! (s, r) := sid_kvs_unset s k a fn in Ok (s, (r, None))
    | KGet k => let! (c, r) := sid_kvs_get s k in Ok (s, (r, c))
    | KAlias k a f => let! (s, r) := sid_kvs_add_alias s k a f in Ok (s, (r, None))
    | KBegin => let (s, r) := trans_begin s in Ok (s, (r, None))
    | KEnd b => let! s := trans_end s b in Ok (s, (0%Z, None))
    | KActive => Ok (s, (if trans_active s then 1%Z else 0%Z, None))
    end.

  Fixpoint krun (s : kv) (ops : list kop) : outcome (kv * list kres) :=
    match ops with
    | [] => Ok (s, [])
    | o :: t => let! (s, r) := kstep s o in let! (s, rs) := krun s t in Ok (s, r :: rs)
    end.
End Store.
Arguments bk {BE}. Arguments heap {BE}. Arguments rb {BE}. Arguments ub {BE}.

Definition kempty : kv spec_backend := Build_kv spec_backend [] [] None None.

(* _destroy_kv_store, src/resource/kvs.c:1350-1367: the value of every record is released once, with its last name (the
   transaction buffers are not looked at). *)
Definition kvs_destroy (s : kv spec_backend) : outcome (list obj) :=
  fold_left (fun h (g : grp) => let! h := h in hfree h (fst (snd g))) (bk s) (Ok (heap s)).
