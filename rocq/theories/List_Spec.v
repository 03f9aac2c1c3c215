From Verif Require Import Base List_Model.
Local Open Scope nat_scope.

(* The lists there are: for each head its members in the order of their insertion; places allocated *)
Record lists := Lists { members : loc -> option (list loc); known : loc -> Prop }.
Definition set_members (f : loc -> option (list loc)) (h : loc) (l : list loc) : loc -> option (list loc) := fun x => if x =? h then Some l else f x.
(* a place that is no member of any list *)
Definition free_place (s : lists) (x : loc) : Prop := forall h l, members s h = Some l -> ~ In x l.
(* What a call does, and when it may be called: a place is allocated once, initialised as a head when in no list, added when it is
   no head and in no list, deleted when in a list *)
Inductive call : lists -> op -> lists -> Prop :=
| C_new s a c : ~ known s a -> call s (New a c) (Lists (members s) (fun x => x = a \/ known s x))
| C_init s h : known s h -> free_place s h -> members s h = None \/ members s h = Some [] -> call s (Init h) (Lists (set_members (members s) h []) (known s))
| C_add s h l e : members s h = Some l -> known s e -> free_place s e -> members s e = None -> call s (Add h e) (Lists (set_members (members s) h (l ++ [e])) (known s))
| C_del s h l1 e l2 : members s h = Some (l1 ++ e :: l2) -> call s (Del e) (Lists (set_members (members s) h (l1 ++ l2)) (known s)).
Inductive calls : lists -> list op -> lists -> Prop :=
| Cs_none s : calls s [] s
| Cs_more s o s' os s'' : call s o s' -> calls s' os s'' -> calls s (o :: os) s''.
Definition no_lists : lists := Lists (fun _ => None) (fun _ => False).
