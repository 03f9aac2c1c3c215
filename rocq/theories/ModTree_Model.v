(* The names of modules in nested registries, src/resource/mod-reg.c.  A registry and a module are numbers; the state holds the records
   they point to.  Modules are not unloaded here (see ModReg_Model). *)
From Verif Require Import Base UtilStr_Model ModReg_Model.
Local Open Scope nat_scope.

Definition EINVAL : Z := 22.
(* struct module_registry, src/resource/mod-reg.c:19-30: the id of its resource, top_registry, base_name, and the parent of its resource *)
Record treg := Treg { t_id : bytes; t_top : nat; t_base : bytes; t_parent : option nat }.
(* struct sid_mod, src/resource/mod-reg.c:32-43: the registry, full_name and name *)
Record tmod := Tmod { t_reg : nat; t_full : bytes; t_name : bytes }.
Record tree := Tree { regs : list treg; tmods : list tmod }.
Definition reg_at (s : tree) (g : nat) : option treg := nth_error (regs s) g.
Definition mod_at (s : tree) (m : nat) : option tmod := nth_error (tmods s) m.
Definition put {A} (l : list A) (i : nat) (x : A) : list A := firstn i l ++ x :: skipn (S i) l.

(* _init_module_registry, src/resource/mod-reg.c:579-584 *)
Definition new_reg (s : tree) (id : bytes) : tree := Tree (regs s ++ [Treg id (length (regs s)) ([SLASH] ++ id) None]) (tmods s).
(* _init_module with _set_module_name, src/resource/mod-reg.c:45-63 and 429-434, for a registry that is there *)
Definition new_mod (s : tree) (g : nat) (id : bytes) : tree :=
  match reg_at s g with
  | Some k => let (full, name) := set_module_name (t_base k) id in Tree (regs s) (tmods s ++ [Tmod g full name])
  | None => s
  end.
(* strncmp(full, base, strlen(base)) == 0 *)
Definition begins (full base : bytes) : bool := if list_eq_dec ascii_dec (firstn (length base) full) base then true else false.
(* sid_mod_reg_reset_mods, src/resource/mod-reg.c:160-184: the names; reset functions of modules are not modelled *)
Definition reset_names (g : nat) (base : bytes) (l : list tmod) : list tmod :=
  map (fun m => if (t_reg m =? g) && negb (begins (t_full m) base) then let (full, name) := set_module_name base (t_name m) in Tmod g full name else m) l.
(* sid_mod_reg_add_mod_subreg, src/resource/mod-reg.c:235-286.  ok: whether sid_res_add_child succeeds, which depends on service links
   (src/resource/res.c:1166-1190) *)
Definition add_subreg (s : tree) (m g : nat) (ok : bool) : tree * Z :=
  match mod_at s m, reg_at s g with
  | Some km, Some kg =>
    match t_parent kg with
    | Some _ => (s, - EINVAL)%Z
    | None =>
      let base := t_full km ++ t_base kg in
      let top := match reg_at s (t_reg km) with Some k => t_top k | None => 0 end in
      let l := reset_names g base (tmods s) in
      if ok then (Tree (put (regs s) g (Treg (t_id kg) top base (Some m))) l, 0%Z)
      else (Tree (put (regs s) g (Treg (t_id kg) g (t_base kg) None)) (reset_names g (t_base kg) l), (- 1)%Z)
    end
  | _, _ => (s, - EINVAL)%Z
  end.
(* _get_top_registry and sid_mod_reg_match_dep, src/resource/mod-reg.c:288-310 *)
Inductive node := NReg (g : nat) | NMod (m : nat).
Definition top_of (s : tree) (n : node) : option nat :=
  match n with
  | NReg g => match reg_at s g with Some k => Some (t_top k) | None => None end
  | NMod m => match mod_at s m with Some k => match reg_at s (t_reg k) with Some k => Some (t_top k) | None => None end | None => None end
  end.
Definition match_dep (s : tree) (a b : node) : bool :=
  match top_of s a, top_of s b with Some x, Some y => x =? y | _, _ => false end.

Inductive top := NewReg (id : bytes) | NewMod (g : nat) (id : bytes) | AddSub (m g : nat) (ok : bool).
Definition tstep (s : tree) (o : top) : tree :=
  match o with NewReg id => new_reg s id | NewMod g id => new_mod s g id | AddSub m g ok => fst (add_subreg s m g ok) end.
Definition trun (l : list top) : tree := fold_left tstep l (Tree [] []).
