From Verif Require Import Base UtilStr_Model UtilStr_Spec ModReg_Model.
Local Open Scope nat_scope.

(* a string in memory *)
Definition word (a : bytes) : Prop := a <> [] /\ ~ In NUL a.
Definition aliases_are (m : bytes) (al : list bytes) : Prop :=
  Forall word al /\ exists rest, m = List.concat (map (fun a => a ++ [NUL]) al) ++ NUL :: rest.
(* the module is called this *)
Definition called (m : modl) (name : bytes) : Prop :=
  m_name m = name \/ exists a al, m_aliases m = Some a /\ aliases_are a al /\ In name al.
Definition good_aliases (m : modl) : Prop := forall a, m_aliases m = Some a -> exists al, aliases_are a al.
Definition no_slash (s : bytes) : Prop := ~ In "/"%char s.
(* before: a smaller priority, or the same and loaded earlier *)
Definition before (a b : modl) : Prop := (m_prio a < m_prio b)%Z \/ (m_prio a = m_prio b /\ m_id a < m_id b).
Fixpoint in_order (l : list modl) : Prop := match l with [] => True | m :: l => Forall (before m) l /\ in_order l end.
(* what the array of symbols is to hold at the place of a parameter: the address, or with SID_MOD_SYM_FL_INDIRECT (4) what is stored
   there; NULL if there is no such symbol, which is not accepted with SID_MOD_SYM_FL_FAIL_ON_MISSING (2) *)
Definition symbol_value (l : library) (name : bytes) (flags : N) (v : option nat) : Prop :=
  match l_sym l name with
  | Some (a, c) => (N.testbit flags 2 = true -> v = c) /\ (N.testbit flags 2 = false -> v = Some a)
  | None => v = None /\ N.testbit flags 1 = false
  end.
Definition has (l : library) (name : bytes) : Prop := exists x, l_sym l name = Some x.
(* the library can be loaded *)
Definition loadable (params : list (bytes * N)) (l : library) : Prop :=
  has l (B "sid_mod_init") /\ has l (B "sid_mod_exit") /\ (forall p, In p params -> N.testbit (snd p) 1 = true -> has l (fst p)) /\ (0 <= l_init l)%Z.
(* the init symbol holds a function *)
Definition proper (l : library) : Prop := forall a, l_sym l (B "sid_mod_init") <> Some (a, None).
(* a file of the directory is the one of a module, up to the case of letters in prefix and suffix *)
Definition or_none (o : option bytes) : bytes := match o with Some s => s | None => [] end.
Definition same_letters (a b : bytes) : Prop := same true a b.
Definition file_of (r : reg) (name file : bytes) : Prop :=
  exists p s, file = p ++ name ++ s /\ same_letters p (or_none (g_prefix r)) /\ same_letters s (or_none (g_suffix r)) /\ (forall t, file <> "."%char :: t).
(* where the library of a module is *)
Definition path_of (r : reg) (name : bytes) : bytes := g_dir r ++ B "/" ++ or_none (g_prefix r) ++ name ++ or_none (g_suffix r).
Definition short_path (r : reg) (name : bytes) : Prop := (N.of_nat (length (path_of r name)) <= 4094)%N.
(* the modules a directory gives *)
Inductive gives (fs : bytes -> option library) (r : reg) : list bytes -> list bytes -> Prop :=
| gives_end : gives fs r [] []
| gives_other f files names : (forall n, ~ file_of r n f) -> gives fs r files names -> gives fs r (f :: files) names
| gives_failing f n files names : file_of r n f -> (forall l, fs (path_of r n) = Some l -> ~ loadable (g_params r) l) -> gives fs r files names ->
    gives fs r (f :: files) names
| gives_module f n l files names : file_of r n f -> fs (path_of r n) = Some l -> loadable (g_params r) l -> gives fs r files names ->
    gives fs r (f :: files) (n :: names).
Definition good_fs (fs : bytes -> option library) : Prop := forall p l, fs p = Some l -> proper l /\ forall a, l_aliases l = Some (Some a) -> exists al, aliases_are a al.
Definition good_file (r : reg) (f : bytes) : Prop := no_slash f /\ length f <= 255 /\ forall n, file_of r n f -> short_path r n.
Definition good_op (r : reg) (o : op) : Prop :=
  match o with
  | LoadMod fs name => good_fs fs /\ no_slash name
  | LoadMods fs (inl files) => good_fs fs /\ Forall (fun f => no_slash f) files
  | LoadMods fs (inr _) => True
  | UnloadMod _ => True
  end.
