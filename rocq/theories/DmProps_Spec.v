From Verif Require Import Base UbrKey_Model UbrDb_Model UbrDelta_Spec Lvm_Spec Dm_Spec.
Local Open Scope nat_scope.

(* What a file in sysfs shows: nothing if it cannot be read or is empty, else its first line, of which n bytes fit *)
Inductive shows (n : nat) : Z + bytes -> option bytes -> Prop :=
| Sh_error : forall e, (0 < e)%Z -> shows n (inl e) None
| Sh_empty : shows n (inr []) None
| Sh_line : forall line rest, ~ In NUL line -> ~ In (ascii_of_nat 10) line -> ~ In NUL rest ->
    shows n (inr (line ++ ascii_of_nat 10 :: rest)) (Some (firstn n line))
| Sh_open : forall line, ~ In NUL line -> ~ In (ascii_of_nat 10) line -> line <> [] -> shows n (inr line) (Some (firstn n line)).

(* The records of a device's properties: values of the module that its submodules may read, and udev variables *)
Definition value_of (u : ucmd) (f : N) (v : bytes) : rec := Rec (u_seq u) f (u_gen u) DM [v ++ [NUL]].
Definition prop_records (u : ucmd) (uuid name susp : bytes) : list (bytes * rec) :=
  [(devmod_key (uid u) DM (B "uuid"), value_of u 66 uuid); (devmod_key (uid u) DM (B "name"), value_of u 66 name)]
  ++ (if length uuid =? 0 then [] else [(udev_var (number u) (B "DM_UUID"), value_of u 6 uuid)])
  ++ [(udev_var (number u) (B "DM_NAME"), value_of u 6 name); (udev_var (number u) (B ".DM_SUSPENDED"), value_of u 6 susp)].
Definition prop_keys (u : ucmd) : list bytes :=
  map (devmod_key (uid u) DM) [B "uuid"; B "name"] ++ map (udev_var (number u)) [B "DM_UUID"; B "DM_NAME"; B ".DM_SUSPENDED"].

(* A record of no member list: its name does not end in those of the lists *)
Definition no_list (x : bytes) : Prop := forall p, x <> members_of p /\ x <> in_of p.
(* The devices that have the module's alias *)
Definition has_alias (d : db) (cat id x : bytes) : Prop := In x (members d (members_of (alias_item DM cat id))).
