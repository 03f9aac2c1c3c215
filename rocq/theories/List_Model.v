(* Circular doubly linked lists, src/internal/list.c and src/include/internal/list.h.  A struct list is a place; the memory gives
   for a place its two pointers, or nothing when the memory is not (or no longer) allocated. *)
From Verif Require Import Base.
Local Open Scope nat_scope.

Definition loc := nat.
(* struct list, src/include/internal/list.h:18-21: n and p *)
Definition mem := loc -> option (loc * loc).
Definition next (m : mem) (a : loc) : outcome loc := match m a with Some (n, _) => Ok n | None => UB end.
Definition prev (m : mem) (a : loc) : outcome loc := match m a with Some (_, p) => Ok p | None => UB end.
Definition write (m : mem) (a : loc) (c : option (loc * loc)) : mem := fun x => if x =? a then c else m x.
Definition set_next (m : mem) (a n : loc) : outcome mem := match m a with Some (_, p) => Ok (write m a (Some (n, p))) | None => UB end.
Definition set_prev (m : mem) (a p : loc) : outcome mem := match m a with Some (n, _) => Ok (write m a (Some (n, p))) | None => UB end.
(* list_init, src/internal/list.c:10-13 *)
Definition list_init (m : mem) (head : loc) : outcome mem :=
  let! m := set_prev m head head in
  set_next m head head.
(* list_add, src/internal/list.c:15-21 *)
Definition list_add (m : mem) (head elem : loc) : outcome mem :=
  let! m := set_next m elem head in
  let! p := prev m head in
  let! m := set_prev m elem p in
  let! p := prev m head in
  let! m := set_next m p elem in
  set_prev m head elem.
(* list_del, src/internal/list.c:23-27 *)
Definition list_del (m : mem) (elem : loc) : outcome mem :=
  let! n := next m elem in
  let! p := prev m elem in
  let! m := set_prev m n p in
  let! p := prev m elem in
  let! n := next m elem in
  set_next m p n.
(* list_is_empty, src/internal/list.c:29-32 *)
Definition list_is_empty (m : mem) (head : loc) : outcome bool := let! n := next m head in Ok (n =? head).
(* list_iterate and list_iterate_back, src/include/internal/list.h:23-25: the places walked through; None when the walk has not
   ended after fuel steps *)
Fixpoint walk (step : mem -> loc -> outcome loc) (fuel : nat) (m : mem) (v head : loc) : outcome (option (list loc)) :=
  match fuel with
  | O => Ok None
  | S fuel =>
    if v =? head then Ok (Some [])
    else
      let! n := step m v in
      let! r := walk step fuel m n head in
      Ok (option_map (cons v) r)
  end.
Definition iterate (fuel : nat) (m : mem) (head : loc) := let! v := next m head in walk next fuel m v head.
Definition iterate_back (fuel : nat) (m : mem) (head : loc) := let! v := prev m head in walk prev fuel m v head.
(* list_get_size, src/internal/list.c:34-43; the counter is a 32-bit number *)
Definition list_get_size (fuel : nat) (m : mem) (head : loc) : outcome (option N) :=
  let! r := iterate fuel m head in
  Ok (option_map (fun l => wrap32 (N.of_nat (length l))) r).

(* A history of calls; New is the allocation of a struct list, whose members have any values *)
Inductive op := New (a : loc) (c : loc * loc) | Init (h : loc) | Add (h e : loc) | Del (e : loc).
Definition run_op (m : mem) (o : op) : outcome mem :=
  match o with
  | New a c => Ok (write m a (Some c))
  | Init h => list_init m h
  | Add h e => list_add m h e
  | Del e => list_del m e
  end.
Fixpoint run (m : mem) (os : list op) : outcome mem :=
  match os with [] => Ok m | o :: os => let! m := run_op m o in run m os end.
