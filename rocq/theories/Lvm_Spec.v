From Verif Require Import Base UtilStr_Spec UbrKey_Model UbrDb_Model UbrPerm_Spec Lvm_Model.
Local Open Scope nat_scope.

(* How LVM builds names: dashes are doubled, a single dash separates the names of volume group, volume and layer *)
Definition quoted (s : bytes) : bytes := flat_map (fun c => if Ascii.eqb c "-" then B "--" else [c]) s.
Definition no_dash_first (s : bytes) : Prop := hd_error s <> Some "-"%char.
Definition lvm_name (vg lv : bytes) (layer : option bytes) : bytes :=
  quoted vg ++ B "-" ++ quoted lv ++ match layer with Some l => B "-" ++ quoted l | None => [] end.
(* Names as LVM accepts them: not empty, not starting with a dash *)
Definition lv_names (vg lv : bytes) (layer : option bytes) : Prop :=
  ~ In NUL vg /\ ~ In NUL lv /\ vg <> [] /\ lv <> [] /\ no_dash_first vg /\ no_dash_first lv
  /\ match layer with Some l => ~ In NUL l /\ l <> [] /\ no_dash_first l | None => True end.

Definition devmod_key (uid m c : bytes) : bytes := B ":USR:X:" ++ uid ++ B ":M:" ++ m ++ B ":" ++ c.
Definition udev_var (num c : bytes) : bytes := B "::U:" ++ num ++ B ":::" ++ c.
Definition number (u : ucmd) : bytes := match num_s (u_dev u) with Some s => s | None => [] end.
Definition uid (u : ucmd) : bytes := match uid_s (u_dev u) with Some s => s | None => [] end.
(* A record with one string that the module LVM may read *)
Definition lvm_reads (d : db) (k v : bytes) : Prop :=
  exists o, recs d k = Some o /\ ~ In NUL (r_owner o) /\ may_read o (B "/type/dm/dm_sub/lvm") /\ ~ In NUL v /\ r_data o = [v ++ [NUL]].
Definition lvm_lacks (d : db) (k : bytes) : Prop := forall o, recs d k = Some o -> r_data o = [].
(* Records the module may write: none, or one that allows it *)
Definition writable (d : db) (m k : bytes) : Prop := forall o, recs d k = Some o -> ~ In NUL (r_owner o) /\ may_write o m.
(* d' has what d has, with the given records set *)
Definition sets (l : list (bytes * rec)) (d d' : db) : Prop :=
  forall k, recs d' k = match find (fun p => key_eqb (fst p) k) l with Some (_, r) => Some r | None => recs d k end.

(* The record of a variable for udev or of a value of the module, as LVM sets them: read by all modules *)
Definition name_record (u : ucmd) (f : N) (v : bytes) : rec := Rec (u_seq u) f (u_gen u) (B "/type/dm/dm_sub/lvm") [v ++ [NUL]].
Definition name_records (u : ucmd) (var key v : bytes) : list (bytes * rec) :=
  [(udev_var (number u) var, name_record u 230 v); (devmod_key (uid u) (B "/type/dm/dm_sub/lvm") key, name_record u 226 v)].
Definition component_records (u : ucmd) (vg lv : bytes) (layer : option bytes) : list (bytes * rec) :=
  name_records u (B "DM_VG_NAME") (B "vg_name") vg ++ name_records u (B "DM_LV_NAME") (B "lv_name") lv
  ++ match layer with Some l => name_records u (B "DM_LV_LAYER") (B "lv_layer") l | None => [] end.
Definition component_keys (u : ucmd) : list bytes :=
  map (udev_var (number u)) [B "DM_VG_NAME"; B "DM_LV_NAME"; B "DM_LV_LAYER"]
  ++ map (devmod_key (uid u) (B "/type/dm/dm_sub/lvm")) [B "vg_name"; B "lv_name"; B "lv_layer"].

(* The lines of an output, each with the pair it gives, if any *)
Definition line_of (p : bytes * option (bytes * bytes)) : Prop :=
  ~ In NUL (fst p) /\ ~ In (ascii_of_nat 10) (fst p) /\ length (fst p) <= 2047 /\
  match snd p with
  | Some (k, v) => pair_text (fst p) k v /\ name_ok k
  | None => ~ valueless (fst p) /\ forall k v, ~ pair_text (fst p) k v
  end.
Definition output_of (l : list (bytes * option (bytes * bytes))) : bytes := flat_map (fun p => fst p ++ [ascii_of_nat 10]) l.
(* The last value given to a key *)
Fixpoint last_value (k : bytes) (l : list (bytes * option (bytes * bytes))) : option bytes :=
  match l with
  | [] => None
  | (_, p) :: l => match last_value k l, p with Some v, _ => Some v | None, Some (k', v) => if key_eqb k k' then Some v else None | None, None => None end
  end.
(* What the module itself stores for a device is its own *)
Definition own_values (d : db) (u : ucmd) : Prop :=
  forall k o, recs d (devmod_key (uid u) (B "/type/dm/dm_sub/lvm") k) = Some o -> r_owner o = B "/type/dm/dm_sub/lvm".
(* The key of a value of the module *)
Definition value_key (u : ucmd) (k : bytes) : bytes := devmod_key (uid u) (B "/type/dm/dm_sub/lvm") k.
(* d' has what d has, with the last value of each key of the output, readable by the module alone *)
Definition stored_values (u : ucmd) (l : list (bytes * option (bytes * bytes))) (d d' : db) : Prop :=
  (forall k v, last_value k l = Some v -> recs d' (value_key u k) = Some (name_record u 0 v))
  /\ (forall x, (forall k, last_value k l <> None -> x <> value_key u k) -> recs d' x = recs d x).
