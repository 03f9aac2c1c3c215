(* A registry of modules, src/resource/mod-reg.c: loading, finding and unloading modules.  The names of nested registries are in
   ModTree_Model. *)
From Verif Require Import Base Tok_Model UtilStr_Model.
Local Open Scope nat_scope.

Definition SLASH : byte := "/"%char.
Definition ENOENT : Z := 2. Definition ENOMEDIUM : Z := 123.
(* SID_MOD_SYM_FL_FAIL_ON_MISSING and SID_MOD_SYM_FL_INDIRECT, src/include/resource/mod-reg.h:23-24: bit numbers *)
Definition BIT_FAIL : N := 1. Definition BIT_INDIRECT : N := 2.

(* What dlopen and dlsym give.  l_sym: the address of a symbol and the pointer stored there (None: NULL); l_prio: the number at
   sid_mod_prio; l_aliases: the pointer at sid_mod_aliases, given by the memory it points to; l_init: what the function at
   sid_mod_init returns.  Simplification: that function does not change the registry. *)
Record library := Library { l_sym : bytes -> option (nat * option nat); l_prio : option Z; l_aliases : option (option bytes); l_init : Z }.
(* struct sid_mod, src/resource/mod-reg.c:32-43, with the priority of its resource.  m_id names the resource. *)
Record modl := Modl { m_id : nat; m_full : bytes; m_name : bytes; m_aliases : option bytes; m_prio : Z;
  m_reset : option nat; m_exit : option nat; m_syms : list (option nat) }.
(* struct module_registry, src/resource/mod-reg.c:19-30, with the children of its resource in their order *)
Record reg := Reg { g_base : bytes; g_dir : bytes; g_prefix : option bytes; g_suffix : option bytes; g_params : list (bytes * N);
  g_mods : list modl; g_next : nat }.
Definition with_mods (r : reg) (l : list modl) (n : nat) : reg := Reg (g_base r) (g_dir r) (g_prefix r) (g_suffix r) (g_params r) l n.

(* strrchr(s, '/') + 1 *)
Definition last_part (s : bytes) : bytes := rev (firstn (span (fun c => negb (Ascii.eqb c SLASH)) (rev s)) (rev s)).
(* _set_module_name, src/resource/mod-reg.c:45-63: the full name and the name.  Simplification: memory is there. *)
Definition set_module_name (base name : bytes) : bytes * bytes := let full := base ++ [SLASH] ++ name in (full, last_part full).

(* The loop over the aliases, src/resource/mod-reg.c:81-86.  m is the memory from alias on; reading behind it is UB. *)
Fixpoint aliases_have (fuel : nat) (m name : bytes) : outcome bool :=
  match fuel with
  | O => UB
  | S fuel =>
    let len := span (fun c => negb (Ascii.eqb c NUL)) m in
    if len =? length m then UB
    else if len =? 0 then Ok false
    else if list_eq_dec ascii_dec (firstn len m) name then Ok true
    else aliases_have fuel (skipn (len + 1) m) name
  end.
(* _find_module, src/resource/mod-reg.c:65-95 *)
Fixpoint find_module (l : list modl) (name : bytes) : outcome (option modl) :=
  match l with
  | [] => Ok None
  | m :: l =>
    if list_eq_dec ascii_dec (m_name m) name then Ok (Some m)
    else let! b := match m_aliases m with None => Ok false | Some a => aliases_have (S (length a)) a name end in
         if b then Ok (Some m) else find_module l name
  end.

(* _load_module_symbol, src/resource/mod-reg.c:385-405: what is stored, None for failure *)
Definition load_symbol (l : library) (p : bytes * N) : option (option nat) :=
  match l_sym l (fst p) with
  | None => if N.testbit (snd p) BIT_FAIL then None else Some None
  | Some (a, v) => Some (if N.testbit (snd p) BIT_INDIRECT then v else Some a)
  end.
Fixpoint load_symbols (l : library) (ps : list (bytes * N)) : option (list (option nat)) :=
  match ps with
  | [] => Some []
  | p :: ps => match load_symbol l p with None => None | Some v => match load_symbols l ps with None => None | Some vs => Some (v :: vs) end end
  end.
(* snprintf into path of PATH_MAX bytes, src/resource/mod-reg.c:440-449: at most 4094 characters *)
Definition module_path (r : reg) (name : bytes) : bytes :=
  firstn 4094 (g_dir r ++ [SLASH] ++ or_empty (g_prefix r) ++ name ++ or_empty (g_suffix r)).
Definition FUNCTION_FLAGS : N := 4. Definition REQUIRED_FUNCTION_FLAGS : N := 6.
(* _init_module, src/resource/mod-reg.c:413-513.  fs: what dlopen gives for a path.  A call of the init function at NULL is UB.  The
   priority is set while the resource is a child of the registry; the place this gives is taken by place below. *)
Definition init_module (fs : bytes -> option library) (r : reg) (id : bytes) : outcome (option modl) :=
  let (full, name) := set_module_name (g_base r) id in
  match fs (module_path r name) with
  | None => Ok None
  | Some l =>
    let prio := match l_prio l with Some p => p | None => 0%Z end in
    let aliases := match l_aliases l with Some a => a | None => None end in
    match load_symbol l (B "sid_mod_reset", FUNCTION_FLAGS) with
    | None => Ok None
    | Some reset =>
      match load_symbol l (B "sid_mod_init", REQUIRED_FUNCTION_FLAGS) with
      | None => Ok None
      | Some init =>
        match load_symbol l (B "sid_mod_exit", REQUIRED_FUNCTION_FLAGS) with
        | None => Ok None
        | Some exit =>
          match load_symbols l (g_params r) with
          | None => Ok None
          | Some syms =>
            match init with
            | None => UB
            | Some _ => if (l_init l <? 0)%Z then Ok None else Ok (Some (Modl (g_next r) full name aliases prio reset exit syms))
            end
          end
        end
      end
    end
  end.
(* _add_res_to_parent_res, src/resource/res.c:221-236: before the first child of greater priority *)
Fixpoint place (m : modl) (l : list modl) : list modl :=
  match l with
  | [] => [m]
  | k :: l' => if (m_prio m <? m_prio k)%Z then m :: l else k :: place m l'
  end.
(* sid_res_create of a module, src/resource/res.c:247-357, with its initialisation *)
Definition create_module (fs : bytes -> option library) (r : reg) (id : bytes) : outcome (reg * option modl) :=
  let! o := init_module fs r id in
  match o with
  | None => Ok (with_mods r (g_mods r) (S (g_next r)), None)
  | Some m => Ok (with_mods r (place m (g_mods r)) (S (g_next r)), Some m)
  end.
(* sid_mod_reg_load_mod, src/resource/mod-reg.c:97-127; sid_mod_reg_get_mod, 129-135 *)
Definition load_mod (fs : bytes -> option library) (r : reg) (name : bytes) : outcome (reg * option modl) :=
  match name with
  | [] => Ok (r, None)
  | _ => let! o := find_module (g_mods r) name in
         match o with Some m => Ok (r, Some m) | None => create_module fs r name end
  end.
Definition get_mod (r : reg) (name : bytes) : outcome (option modl) :=
  match name with [] => Ok None | _ => find_module (g_mods r) name end.
(* _load_modules, src/resource/mod-reg.c:312-373, sid_mod_reg_load_mods, 375-381.  dir: the names scandir gives in their order, or errno.
   The copy of the name fails if it has more than SID_MOD_NAME_MAX_LEN characters; for the function that copies see UtilStr_Model. *)
Definition SID_MOD_NAME_MAX_LEN : nat := 255.
Definition is_module_file (r : reg) (file : bytes) : bool :=
  match file with c :: _ => negb (Ascii.eqb c ".") | [] => true end
  && match combstr file (g_prefix r) None (g_suffix r) true with Some _ => true | None => false end.
Definition file_module (r : reg) (file : bytes) : bytes :=
  let p := length (or_empty (g_prefix r)) in firstn (length file - p - length (or_empty (g_suffix r))) (skipn p file).
Fixpoint load_files (fs : bytes -> option library) (r : reg) (files : list bytes) (found : nat) : outcome (reg * nat) :=
  match files with
  | [] => Ok (r, found)
  | f :: files =>
    if is_module_file r f then
      if SID_MOD_NAME_MAX_LEN <? length (file_module r f) then load_files fs r files (S found)
      else let! x := create_module fs r (file_module r f) in load_files fs (fst x) files (S found)
    else load_files fs r files found
  end.
Definition load_mods (fs : bytes -> option library) (r : reg) (dir : list bytes + Z) : outcome (reg * Z) :=
  match dir with
  | inr e => Ok (r, if (e =? ENOENT)%Z then - ENOENT else - 1)%Z
  | inl files => let! x := load_files fs r files 0 in Ok (fst x, if snd x =? 0 then (- ENOMEDIUM)%Z else 0%Z)
  end.
(* sid_mod_reg_unload_mod, src/resource/mod-reg.c:137-143, with _destroy_module, 515-529.  The module holds no other reference and has
   no sub-registry; an exit function at NULL is UB. *)
Definition unload_mod (r : reg) (id : nat) : outcome reg :=
  match find (fun m => m_id m =? id) (g_mods r) with
  | None => Ok r
  | Some m => match m_exit m with None => UB | Some _ => Ok (with_mods r (filter (fun m => negb (m_id m =? id)) (g_mods r)) (g_next r)) end
  end.
(* _init_module_registry, src/resource/mod-reg.c:553-632.  symbols: the parameters up to the one without a name. *)
Definition not_empty (o : option bytes) : option bytes := match o with Some [] => None | o => o end.
Definition init_registry (fs : bytes -> option library) (id : bytes) (dir : option bytes) (prefix suffix : option bytes)
    (symbols : list (bytes * N)) (preload : bool) (files : list bytes + Z) : outcome (option reg) :=
  match not_empty dir with
  | None => Ok None
  | Some d =>
    match symbols with
    | [] => Ok None
    | _ =>
      let r := Reg ([SLASH] ++ id) d (not_empty prefix) (not_empty suffix) symbols [] 0 in
      if preload then let! x := load_mods fs r files in Ok (if (snd x <? 0)%Z then None else Some (fst x)) else Ok (Some r)
    end
  end.

(* A history of calls *)
Inductive op := LoadMod (fs : bytes -> option library) (name : bytes) | LoadMods (fs : bytes -> option library) (dir : list bytes + Z)
  | UnloadMod (id : nat).
Definition step (r : reg) (o : op) : outcome reg :=
  match o with
  | LoadMod fs name => let! x := load_mod fs r name in Ok (fst x)
  | LoadMods fs dir => let! x := load_mods fs r dir in Ok (fst x)
  | UnloadMod id => unload_mod r id
  end.
Fixpoint history (r : reg) (l : list op) : outcome reg := match l with [] => Ok r | o :: l => let! r := step r o in history r l end.
