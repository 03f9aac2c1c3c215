(* What the key-value store properties say: a map from keys to contents. *)
From Verif Require Import Base Hash_Model Bptree_Model Kvs_Model.
Local Open Scope N_scope.

Definition cmap := bytes -> option content.
Definition same (a b : bytes) : bool := if list_eq_dec ascii_dec a b then true else false.
Definition mset (m : cmap) (k : bytes) (c : option content) : cmap := fun k' => if same k k' then c else m k'.

(* The contents a value is stored with: only a copied vector that is to be merged changes its shape. *)
Definition as_stored (c : content) (merge : bool) : content :=
  match cvec c, cref c, merge with
  | true, false, true => {| cvec := false; cref := false; cauto := cauto c; citems := [List.concat (citems c)] |}
  | _, _, _ => c
  end.

(* What a set stores, if anything. *)
Definition accepted (fn : option setcb) (old : option content) (new : content) : option content :=
  match fn with
  | None => Some new
  | Some fn =>
      let '(r, c, merge) := fn old new in
      if (r =? 0)%Z then None else if (0 <? r)%Z then Some (as_stored c merge) else Some new
  end.
Definition allows (fn : option unsetcb) (old : option content) : bool :=
  match fn with None => true | Some fn => negb (fn old =? 0)%Z end.

Definition archive (m : cmap) (arch : option bytes) (old : option content) : cmap :=
  match arch, old with Some a, Some o => mset m (canonicalize_key a) (Some o) | _, _ => m end.

(* One operation applied directly. *)
Definition plain_step (m : cmap) (o : kop) : cmap :=
  match o with
  | KSet ((_ :: _) as k) c merge arch fn =>
      let k := canonicalize_key k in
      match accepted fn (m k) (as_stored c merge) with
      | Some c' => archive (mset m k (Some c')) arch (m k)
      | None => m
      end
  | KUnset ((_ :: _) as k) arch fn =>
      let k := canonicalize_key k in
      if allows fn (m k) then archive (mset m k None) arch (m k) else m
  | _ => m
  end.
Definition plain_run (m : cmap) (ops : list kop) : cmap := fold_left plain_step ops m.

(* A history: operations outside transactions, and whole transactions. *)
Inductive seg := Plain (o : kop) | Trans (ops : list kop) (rollback : bool).
Definition calls (sg : seg) : list kop :=
  match sg with Plain o => [o] | Trans ops b => KBegin :: ops ++ [KEnd b] end.
Definition history (l : list seg) : list kop := flat_map calls l.

(* ... and what it should do. *)
Definition seg_step (m : cmap) (sg : seg) : cmap :=
  match sg with
  | Plain o => plain_step m o
  | Trans ops false => plain_run m ops
  | Trans _ true => m
  end.
Definition seg_run (l : list seg) : cmap := fold_left seg_step l (fun _ => None).

(* Unset callbacks return 0 or 1, as documented. *)
Definition code01 (fn : option unsetcb) : Prop :=
  match fn with None => True | Some fn => forall o, fn o = 0%Z \/ fn o = 1%Z end.
Definition data_op (o : kop) : Prop :=
  match o with
  | KSet _ _ _ _ _ | KGet _ | KActive => True
  | KUnset _ _ fn => code01 fn
  | _ => False
  end.

(* What a transaction may do for its commit to be right: once a key has been unset, leave it alone. *)
Fixpoint commit_ok (gone : list bytes) (ops : list kop) : Prop :=
  match ops with
  | [] => True
  | KSet k _ _ a _ :: t =>
      ~ In (canonicalize_key k) gone /\ (forall x, a = Some x -> ~ In (canonicalize_key x) gone) /\ commit_ok gone t
  | KUnset k a _ :: t =>
      ~ In (canonicalize_key k) gone /\
      (forall x, a = Some x -> ~ In (canonicalize_key x) gone /\ canonicalize_key x <> canonicalize_key k) /\
      commit_ok (canonicalize_key k :: gone) t
  | KGet k :: t => ~ In (canonicalize_key k) gone /\ commit_ok gone t
  | _ :: t => commit_ok gone t
  end.
(* ... and for its rollback: write every key at most once, and do not unset with an archive key. *)
Fixpoint rollback_ok (used : list bytes) (ops : list kop) : Prop :=
  match ops with
  | [] => True
  | KSet k _ _ a _ :: t =>
      ~ In (canonicalize_key k) used /\
      (forall x, a = Some x -> ~ In (canonicalize_key x) used /\ canonicalize_key x <> canonicalize_key k) /\
      rollback_ok (canonicalize_key k :: match a with Some x => [canonicalize_key x] | None => [] end ++ used) t
  | KUnset _ a _ :: t => a = None /\ rollback_ok used t
  | _ :: t => rollback_ok used t
  end.
Definition seg_ok (sg : seg) : Prop :=
  match sg with
  | Plain o => data_op o
  | Trans ops false => Forall data_op ops /\ commit_ok [] ops
  | Trans ops true => Forall data_op ops /\ rollback_ok [] ops
  end.

(* What reading a key must give. *)
Definition reads (m : cmap) (k : bytes) : option content * Z :=
  match k with
  | [] => (None, (- EINVAL)%Z)
  | _ => match m (canonicalize_key k) with Some c => (Some c, 0%Z) | None => (None, (- ENOENT)%Z) end
  end.

(* Return code of a call. *)
Definition code_ok (o : kop) (r : kres) : Prop :=
  match o with
  | KSet k _ _ _ _ | KUnset k _ _ => fst r = match k with [] => (- EINVAL)%Z | _ => 0%Z end
  | _ => True
  end.

Definition still_allocated (h : list obj) : list obj := filter snd h.

(* Whether a transaction is open after a history. *)
Definition opens (b : bool) (o : kop) : bool := match o with KBegin => true | KEnd _ => false | _ => b end.
Definition is_open (ops : list kop) : bool := fold_left opens ops false.

(* The answers of a history without transactions. *)
Fixpoint answers (m : cmap) (ops : list kop) : list kres :=
  match ops with
  | [] => []
  | o :: t =>
      match o with
      | KSet k _ _ _ _ | KUnset k _ _ => (match k with [] => (- EINVAL)%Z | _ => 0%Z end, None)
      | KGet k => (snd (reads m k), fst (reads m k))
      | _ => (0%Z, None)
      end :: answers (plain_step m o) t
  end.

(* A run of a history on a fresh store above each backend: its answers and how keys read afterwards. *)
Definition on_hash (hint : N) (ops : list kop) (P : list kres -> (bytes -> outcome (option content * Z)) -> Prop) : Prop :=
  exists t s rs, hash_create hint = Some t /\
    krun hash_backend (Build_kv hash_backend t [] None None) ops = Ok (s, rs) /\ P rs (sid_kvs_get hash_backend s).
Definition on_bptree (order : nat) (ops : list kop) (P : list kres -> (bytes -> outcome (option content * Z)) -> Prop) : Prop :=
  exists b s rs, bptree_create order = Some b /\
    krun bptree_backend (Build_kv bptree_backend b [] None None) ops = Ok (s, rs) /\ P rs (sid_kvs_get bptree_backend s).

(* White space: tab, line feed, vertical tab, form feed, carriage return, space. *)
Definition white (c : byte) : Prop := In (byteN c) [9; 10; 11; 12; 13; 32].
