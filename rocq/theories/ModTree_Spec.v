From Verif Require Import Base ModReg_Model ModReg_Spec ModTree_Model.
Local Open Scope nat_scope.

(* The path of a registry or a module from the top, by the parents *)
Inductive path (s : tree) : node -> bytes -> Prop :=
| path_top g k : reg_at s g = Some k -> t_parent k = None -> path s (NReg g) (B "/" ++ t_id k)
| path_reg g k m p : reg_at s g = Some k -> t_parent k = Some m -> path s (NMod m) p -> path s (NReg g) (p ++ B "/" ++ t_id k)
| path_mod m k p : mod_at s m = Some k -> path s (NReg (t_reg k)) p -> path s (NMod m) (p ++ B "/" ++ t_name k).
(* the registry at the top of it *)
Inductive root (s : tree) : node -> nat -> Prop :=
| root_top g k : reg_at s g = Some k -> t_parent k = None -> root s (NReg g) g
| root_reg g k m x : reg_at s g = Some k -> t_parent k = Some m -> root s (NMod m) x -> root s (NReg g) x
| root_mod m k x : mod_at s m = Some k -> root s (NReg (t_reg k)) x -> root s (NMod m) x.
Definition exists_node (s : tree) (n : node) : Prop := match n with NReg g => g < length (regs s) | NMod m => m < length (tmods s) end.
(* no module of the registry has a registry of its own *)
Definition flat (s : tree) (g : nat) : Prop := forall h k m km, reg_at s h = Some k -> t_parent k = Some m -> mod_at s m = Some km -> t_reg km <> g.
(* the module is not one of the registry *)
Definition outside (s : tree) (m g : nat) : Prop := forall k, mod_at s m = Some k -> t_reg k <> g.
Definition good_top (s : tree) (o : top) : Prop :=
  match o with NewReg _ => True | NewMod _ id => no_slash id | AddSub m g ok => flat s g /\ outside s m g /\ ok = true end.
Fixpoint good_run (s : tree) (l : list top) : Prop := match l with [] => True | o :: l => good_top s o /\ good_run (tstep s o) l end.
