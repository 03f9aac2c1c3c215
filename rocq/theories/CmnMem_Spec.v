From Verif Require Import Base CmnMem_Model.
Local Open Scope nat_scope.

(* A module which is loaded: its init function does not fail, and it has no directory of its own or one with modules in it *)
Definition has_files (s : subt) : bool := match s with S_none | S_dir (D_files (M_cons _ _)) => true | _ => false end.
Definition loads (m : modt) : bool := match m with Modt _ f s => match f with None => has_files s | Some _ => false end end.
(* It, or a module below it, is loaded with a key *)
Fixpoint mod_keyed (m : modt) : bool := match m with Modt k f s => loads (Modt k f s) && ((0 <? k) || sub_keyed s) end
with sub_keyed (s : subt) : bool := match s with S_none => false | S_dir d => dir_keyed d end
with dir_keyed (d : dirt) : bool := match d with D_files l => mods_keyed l | _ => false end
with mods_keyed (l : mods) : bool := match l with M_nil => false | M_cons m l => mod_keyed m || mods_keyed l end.
(* It and all modules below it are loaded *)
Fixpoint mod_clean (m : modt) : bool := match m with Modt k f s => loads (Modt k f s) && sub_clean s end
with sub_clean (s : subt) : bool := match s with S_none => true | S_dir d => dir_clean d end
with dir_clean (d : dirt) : bool := match d with D_files l => mods_clean l | _ => true end
with mods_clean (l : mods) : bool := match l with M_nil => true | M_cons m l => mod_clean m && mods_clean l end.

(* The structure is made, and if it is, destroyed at the end: what exists after it *)
Definition common_life (fails : option cstep) (block type : dirt) : outcome (list nat) :=
  let! (h, made) := init_common fails block type in
  match made with
  | None => Ok (live h)
  | Some (v, k) => let! h := destroy_common h v k in Ok (live h)
  end.
(* A heap in which all that a module needs exists *)
Definition sound (h : heap) (v : common) (in_block : bool) (reg : nat) : Prop :=
  Forall (fun n => n < next h) (live h) /\ In (v_ctx v) (live h) /\ In (v_kvs v) (live h) /\ In (v_gen v) (live h) /\ In (v_block v) (live h)
  /\ (in_block = false -> In (v_type v) (live h)) /\ In reg (live h).
