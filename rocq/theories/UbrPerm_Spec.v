From Verif Require Import Base UbrKey_Model UbrDb_Model.
Local Open Scope nat_scope.

(* m is below a: a path of names starts with the path a *)
Definition below (a m : bytes) : Prop := exists x, x <> [] /\ m = a ++ "/"%char :: x.
Definition no_slash (s : bytes) : Prop := ~ In "/"%char s.
Definition no_nul (s : bytes) : Prop := ~ In NUL s.

(* Bits of the flags word, by position (ucmd-mod.h:139-158) *)
Definition flag (r : rec) (bit : N) : Prop := N.testbit (r_flags r) bit = true.
Definition is_reserved r := flag r 4.

(* The relation the writer w has to the owner o of a record, as the code decides it *)
Inductive stands : bytes -> bytes -> mod_rel -> Prop :=
| St_core : forall o, stands o (B "/") MOD_CORE_MATCH
| St_same : forall o, o <> B "/" -> stands o o MOD_MATCH
| St_sub : forall p x y, p ++ y <> B "/" -> y <> [] -> hd_error x <> hd_error y ->
    (length p = 1 \/ (p <> [] /\ hd_error y = Some "/"%char)) -> stands (p ++ x) (p ++ y) MOD_SUB_MATCH
| St_sup : forall p x, p <> B "/" -> x <> [] -> (length p = 1 \/ (p <> [] /\ hd_error x = Some "/"%char)) -> stands (p ++ x) p MOD_SUP_MATCH
| St_none : forall p x y, p ++ y <> B "/" -> p ++ x <> p ++ y -> hd_error x <> hd_error y ->
    (p = [] \/ (length p <> 1 /\ (if y then hd_error x <> Some "/"%char else hd_error y <> Some "/"%char))) -> stands (p ++ x) (p ++ y) MOD_NO_MATCH.

(* Which bit grants writing and reading for a relation; the owner and the core need none *)
Definition write_bit (m : mod_rel) : option N :=
  match m with MOD_NO_MATCH => Some 8%N | MOD_SUB_MATCH => Some 9%N | MOD_SUP_MATCH => Some 10%N | MOD_MATCH | MOD_CORE_MATCH => None end.
Definition read_bit (m : mod_rel) : option N :=
  match m with MOD_NO_MATCH => Some 5%N | MOD_SUB_MATCH => Some 6%N | MOD_SUP_MATCH => Some 7%N | MOD_MATCH | MOD_CORE_MATCH => None end.
Definition granted (r : rec) (bit : option N) : Prop := match bit with None => True | Some b => flag r b end.
Definition may_write (r : rec) (w : bytes) : Prop := forall m, stands (r_owner r) w m -> granted r (write_bit m).
Definition may_read (r : rec) (w : bytes) : Prop := forall m, stands (r_owner r) w m -> granted r (read_bit m).

(* The record a module addresses with a key name *)
Definition record_key (u : ucmd) (owner : bytes) (n : kv_ns) (core : bytes) : bytes :=
  let part := match n with
              | NS_UDEV => match num_s (u_dev u) with Some s => s | None => [] end
              | NS_DEVICE | NS_DEVMOD => match uid_s (u_dev u) with Some s => s | None => [] end
              | NS_MODULE => owner
              | NS_GLOBAL | NS_UNDEFINED => []
              end in
  B ":" ++ (match n with NS_UDEV => [] | _ => B "USR" end) ++ B ":"
  ++ (match n with NS_UNDEFINED => [] | NS_UDEV => B "U" | NS_DEVICE => B "D" | NS_MODULE => B "M" | NS_DEVMOD => B "X" | NS_GLOBAL => B "G" end)
  ++ B ":" ++ part ++ B ":" ++ (match n with NS_DEVMOD => B "M" | _ => [] end) ++ B ":"
  ++ (match n with NS_DEVMOD => owner | _ => [] end) ++ B ":" ++ core.
(* The record under which a module reserves the key name on all devices *)
Definition reservation_key (n : kv_ns) (core : bytes) : bytes :=
  B ":" ++ (match n with NS_UDEV => [] | _ => B "USR" end) ++ B ":"
  ++ (match n with NS_UNDEFINED => [] | NS_UDEV => B "U" | NS_DEVICE => B "D" | NS_MODULE => B "M" | NS_DEVMOD => B "X" | NS_GLOBAL => B "G" end)
  ++ B "::::" ++ core.
Definition name_ok (core : bytes) : Prop := core <> [] /\ hd_error core <> Some "#"%char.
