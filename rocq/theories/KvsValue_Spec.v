(* What the property on stored values says. *)
From Verif Require Import Base KvsValue_Model.
Local Open Scope nat_scope.

(* The bytes the caller supplied, item by item. *)
Definition supplied (m : list (option blk)) (src : source) : outcome (list bytes) :=
  match src with
  | Vector b cnt => let! l := items_at m b cnt in read_items m l
  | Scalar p len => let! d := mread m p len in Ok [d]
  end.
Definition bases (l : list (option (nat * nat) * nat)) : list nat :=
  flat_map (fun i => match fst i with Some (x, _) => [x] | None => [] end) l.
(* The caller's blocks, given over with AUTOFREE: every one allocated, passed by its start and only once. *)
Definition handed_over (m : list (option blk)) (src : source) : list nat :=
  match src with
  | Vector b cnt => match items_at m b cnt with Ok l => b :: bases l | UB => [] end
  | Scalar (Some (x, _)) _ => [x]
  | Scalar None _ => []
  end.
Definition by_start (m : list (option blk)) (p : option (nat * nat)) : Prop :=
  match p with None => True | Some (x, o) => o = 0 /\ block m x <> None end.
Definition malloced (m : list (option blk)) (src : source) : Prop :=
  NoDup (handed_over m src) /\
  match src with
  | Vector b cnt => match items_at m b cnt with Ok l => Forall (fun i => by_start m (fst i)) l | UB => False end
  | Scalar p _ => by_start m p
  end.

(* What reading back must show: VECTOR, REF, AUTOFREE, size, bytes. *)
Definition stored_form (src : source) (ref auto merge : bool) (ds : list bytes) : bool * bool * bool * nat * list bytes :=
  match src with
  | Vector _ cnt => if merge && negb ref then (false, false, auto, length (List.concat ds), [List.concat ds]) else (true, ref, auto, cnt, ds)
  | Scalar _ len => (false, ref, auto, len, ds)
  end.
Definition merged_in_place (src : source) (ref merge : bool) : option nat :=
  match src with Vector b _ => if ref && merge then Some b else None | _ => None end.
Definition has_items (src : source) : Prop := match src with Vector _ cnt => 0 < cnt | _ => True end.
