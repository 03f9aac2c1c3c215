From Verif Require Import Base ResEv_Model.
Local Open Scope N_scope.

(* What happens to a source: it fires (the handler sets its own counter and returns), or somebody sets its counter *)
Inductive happening := Fires (ran : bool) (calls : list (pos * N)) (z : Z) | Sets (d : pos) (n : N).
Definition fine (child : bool) (x : happening) : Prop := match x with
  | Fires ran calls z => (child = true -> z = 0%Z) /\ (ran = false -> calls = [] /\ (0 <= z)%Z) /\ Forall (fun c => snd c <= UNLIMITED) calls
  | Sets _ n => n <= UNLIMITED
  end.
(* a source fires only if it is not off *)
Inductive happens (child : bool) : ev -> list happening -> ev -> Prop :=
| E_none e : happens child e [] e
| E_fire e ran calls z l e' : e_on e <> Off -> happens child (dispatch child e ran calls z) l e' -> happens child e (Fires ran calls z :: l) e'
| E_set e d n l e' : happens child (set_counter e d n) l e' -> happens child e (Sets d n :: l) e'.
Definition fires (l : list happening) : nat := length (filter (fun x => match x with Fires _ _ _ => true | Sets _ _ => false end) l).
(* no call sets the counter *)
Definition undisturbed (x : happening) : Prop := match x with Fires _ calls _ => calls = [] | Sets _ _ => False end.
(* how often the source may fire in all, once the counter is set *)
Definition allowed (fired : N) (d : pos) (n : N) : N := if n =? UNLIMITED then UNLIMITED else match d with ABS => N.max n fired | REL => N.min (fired + n) (UNLIMITED - 1) end.
