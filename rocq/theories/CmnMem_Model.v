(* The lifetime of the structure shared by all commands, of its store and of the modules, src/resource/ubr.c and
   src/resource/mod-reg.c. *)
From Verif Require Import Base.
Local Open Scope nat_scope.

(* Pieces of memory by number: a resource and the structure of it are one piece, except for common_ctx.  held has the modules (by
   number) for which keys are reserved in the store, one entry per key. *)
Record heap := Heap { live : list nat; next : nat; held : list nat }.
Definition empty : heap := Heap [] 0 [].
Definition alloc (h : heap) : nat * heap := (next h, Heap (next h :: live h) (S (next h)) (held h)).
Definition is_live (h : heap) (n : nat) : bool := existsb (Nat.eqb n) (live h).
Fixpoint remove1 (n : nat) (l : list nat) : list nat :=
  match l with [] => [] | x :: l => if n =? x then l else x :: remove1 n l end.
(* Both are UB for a piece freed before *)
Definition use (h : heap) (n : nat) : outcome heap := if is_live h n then Ok h else UB.
Definition free (h : heap) (n : nat) : outcome heap := if is_live h n then Ok (Heap (remove1 n (live h)) (next h) (held h)) else UB.

(* A module in a directory: the number of keys which its init function reserves and its exit function gives back (as
   src/modules/ucmd/block/blkid/blkid.c:71-117 and src/modules/ucmd/type/dm/dm.c:416-519); the number of keys after which the init
   function fails, if it does (a file which cannot be loaded at all is a module that fails after none); and the directory of its own
   modules (dm.c only).  A directory: missing, not readable, or with modules. *)
Inductive modt := Modt (keys : nat) (fails : option nat) (sub : subt)
with subt := S_none | S_dir (d : dirt)
with dirt := D_missing | D_error | D_files (l : mods)
with mods := M_nil | M_cons (m : modt) (l : mods).
(* A module which is loaded, its keys and its registry with modules *)
Inductive lmod := LMod (id keys : nat) (sub : lsub)
with lsub := L_none | L_sub (reg : nat) (l : lmods)
with lmods := L_nil | L_cons (m : lmod) (l : lmods).

(* What common_ctx points to, and itself (struct sid_ucmd_common_ctx, src/resource/ubr.c:119-126) *)
Record common := Common { v_ctx : nat; v_kvs : nat; v_gen : nat; v_block : nat; v_type : nat }.

(* sid_ucmd_kv_reserve and sid_ucmd_kv_unreserve, src/resource/ubr.c:2957-2991: the registry of the module is compared with the block
   registry first, with the type registry only if it is another (sid_mod_reg_match_dep, src/resource/mod-reg.c:298-310); then
   _do_sid_ucmd_mod_reserve_kv (2892-2955) uses the buffer and the store.  in_block tells whether the module is below the block registry. *)
Definition touch (h : heap) (v : common) (in_block : bool) (id reg : nat) : outcome heap :=
  let! h := use h (v_ctx v) in
  let! h := use h id in
  let! h := use h reg in
  let! h := use h (v_block v) in
  let! h := if in_block then Ok h else use h (v_type v) in
  let! h := use h (v_gen v) in
  use h (v_kvs v).
Definition reserve (h : heap) (v : common) (in_block : bool) (id reg : nat) : outcome heap :=
  let! h := touch h v in_block id reg in Ok (Heap (live h) (next h) (id :: held h)).
Definition unreserve (h : heap) (v : common) (in_block : bool) (id reg : nat) : outcome heap :=
  let! h := touch h v in_block id reg in Ok (Heap (live h) (next h) (remove1 id (held h))).
Fixpoint times (n : nat) (f : heap -> outcome heap) (h : heap) : outcome heap :=
  match n with O => Ok h | S n => let! h := f h in times n f h end.

(* The results of _load_modules, src/resource/mod-reg.c:312-373: 0, -ENOENT, -ENOMEDIUM (no file with the name of a module) and -1 *)
Inductive loaded := R_ok | R_missing | R_empty | R_error.

(* _init_module, src/resource/mod-reg.c:413-513, with an init function as above: the registry of its own modules is made first and
   attached, then the keys are reserved, then its modules are loaded; a failure frees the registry (src/modules/ucmd/type/dm/dm.c:492-495)
   and the module, and does not give back the keys.  None: not loaded.  Simplification: memory does not run out; the order of the
   modules by priority is left out. *)
Fixpoint init_mod (m : modt) (h : heap) (v : common) (in_block : bool) (reg : nat) : outcome (heap * option lmod) :=
  match m with
  | Modt keys fails sub =>
    let (id, h) := alloc h in
    let sub_reg := match sub with S_none => None | S_dir _ => Some (next h) end in
    let h := match sub with S_none => h | S_dir _ => snd (alloc h) end in
    let drop h := let! h := match sub_reg with None => Ok h | Some r => free h r end in let! h := free h id in Ok (h, None) in
    let! h := times (match fails with None => keys | Some k => Nat.min k keys end) (fun h => reserve h v in_block id reg) h in
    match fails with
    | Some _ => drop h
    | None =>
      let! (h, x) := init_sub sub h v in_block match sub_reg with None => reg | Some r => r end in
      match x with
      | None => drop h
      | Some l => Ok (h, Some (LMod id keys match sub_reg with None => L_none | Some r => L_sub r l end))
      end
    end
  end
(* sid_mod_reg_load_mods, src/resource/mod-reg.c:375-381, as called by dm.c:486-489: every failure is one of the module *)
with init_sub (s : subt) (h : heap) (v : common) (in_block : bool) (reg : nat) : outcome (heap * option lmods) :=
  match s with
  | S_none => Ok (h, Some L_nil)
  | S_dir d => let! (h, l, r) := load_dir d h v in_block reg in Ok (h, match r with R_ok => Some l | _ => None end)
  end
(* _load_modules, src/resource/mod-reg.c:312-373 *)
with load_dir (d : dirt) (h : heap) (v : common) (in_block : bool) (reg : nat) : outcome (heap * lmods * loaded) :=
  match d with
  | D_missing => Ok (h, L_nil, R_missing)
  | D_error => Ok (h, L_nil, R_error)
  | D_files l => let! (h, x) := load_files l h v in_block reg in Ok (h, x, match l with M_nil => R_empty | _ => R_ok end)
  end
with load_files (l : mods) (h : heap) (v : common) (in_block : bool) (reg : nat) : outcome (heap * lmods) :=
  match l with
  | M_nil => Ok (h, L_nil)
  | M_cons m l =>
    let! (h, x) := init_mod m h v in_block reg in
    let! (h, y) := load_files l h v in_block reg in
    Ok (h, match x with None => y | Some x => L_cons x y end)
  end.

(* The destruction of a module: what is below it first, the last module first (_do_sid_res_unref, src/resource/res.c:359-454), then
   _destroy_module, src/resource/mod-reg.c:515-529 *)
Fixpoint destroy_mod (m : lmod) (h : heap) (v : common) (in_block : bool) (reg : nat) : outcome heap :=
  match m with
  | LMod id keys sub =>
    let! h := destroy_sub sub h v in_block in
    let! h := use h id in
    let! h := use h reg in
    let! h := times keys (fun h => unreserve h v in_block id reg) h in
    free h id
  end
with destroy_sub (s : lsub) (h : heap) (v : common) (in_block : bool) : outcome heap :=
  match s with
  | L_none => Ok h
  | L_sub r l => let! h := destroy_mods l h v in_block r in free h r
  end
with destroy_mods (l : lmods) (h : heap) (v : common) (in_block : bool) (reg : nat) : outcome heap :=
  match l with
  | L_nil => Ok h
  | L_cons m l => let! h := destroy_mods l h v in_block reg in destroy_mod m h v in_block reg
  end.

(* The steps of _init_common which may fail, src/resource/ubr.c:7485-7624: the structure, the store, the buffer, the generation and boot
   id, both registries; then the directories *)
Inductive cstep := C_ctx | C_kvs | C_gen | C_setup | C_block | C_type.
Definition cstep_eqb (a b : cstep) : bool :=
  match a, b with C_ctx, C_ctx | C_kvs, C_kvs | C_gen, C_gen | C_setup, C_setup | C_block, C_block | C_type, C_type => true | _, _ => false end.
(* The children of the resource: the store first as its priority is lower (7501-7507), then the block and the type registry; those made
   so far.  What they have is destroyed last to first, by sid_res_create after a failure (src/resource/res.c:328-330) and by sid_res_unref. *)
Record children := Children { k_kvs : bool; k_block : option lmods; k_type : option lmods }.
Definition destroy_children (h : heap) (v : common) (k : children) : outcome heap :=
  let! h := match k_type k with None => Ok h | Some l => let! h := destroy_mods l h v false (v_type v) in free h (v_type v) end in
  let! h := match k_block k with None => Ok h | Some l => let! h := destroy_mods l h v true (v_block v) in free h (v_block v) end in
  if k_kvs k then free h (v_kvs v) else Ok h.
(* The label fail, src/resource/ubr.c:7627-7634, and then the failure of sid_res_create: the structure is freed before the children *)
Definition common_fail (h : heap) (v : common) (gen : bool) (k : children) : outcome heap :=
  let! h := if gen then free h (v_gen v) else Ok h in
  let! h := free h (v_ctx v) in
  destroy_children h v k.
(* _init_common, src/resource/ubr.c:7485-7634, with the directories of both registries: the structure and its children, if it is made.
   The content of the store (7518-7520) is left out. *)
Definition init_common (fails : option cstep) (block type : dirt) : outcome (heap * option (common * children)) :=
  let at_step s := match fails with None => false | Some x => cstep_eqb x s end in
  let stop x := let! h := x in Ok (h, None) in
  if at_step C_ctx then Ok (empty, None)
  else
    let (ctx, h) := alloc empty in
    let v0 := Common ctx 0 0 0 0 in
    if at_step C_kvs then stop (common_fail h v0 false (Children false None None))
    else
      let (kvs, h) := alloc h in
      let v1 := Common ctx kvs 0 0 0 in
      if at_step C_gen then stop (common_fail h v1 false (Children true None None))
      else
        let (gen, h) := alloc h in
        let v2 := Common ctx kvs gen 0 0 in
        if at_step C_setup || at_step C_block then stop (common_fail h v2 true (Children true None None))
        else
          let (b, h) := alloc h in
          let v3 := Common ctx kvs gen b 0 in
          if at_step C_type then stop (common_fail h v3 true (Children true (Some L_nil) None))
          else
            let (t, h) := alloc h in
            let v := Common ctx kvs gen b t in
            let! (h, bl, r) := load_dir block h v true b in
            match r with
            | R_error => stop (common_fail h v true (Children true (Some bl) (Some L_nil)))
            | _ =>
              let! (h, tl, r) := load_dir type h v false t in
              match r with
              | R_error => stop (common_fail h v true (Children true (Some bl) (Some tl)))
              | _ => Ok (h, Some (v, Children true (Some bl) (Some tl)))
              end
            end.
(* _do_sid_res_unref with _destroy_common, src/resource/ubr.c:7636-7644: the children first, then the buffer and the structure *)
Definition destroy_common (h : heap) (v : common) (k : children) : outcome heap :=
  let! h := destroy_children h v k in
  let! h := free h (v_gen v) in
  free h (v_ctx v).
