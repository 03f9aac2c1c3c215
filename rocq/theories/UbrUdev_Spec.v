From Verif Require Import Base UbrKey_Model UbrKey_Spec UbrDb_Model UbrSync_Model.
Local Open Scope nat_scope.

(* The text a record of the udev namespace has to give, with its final NUL: it is marked for sync and its value is a string that is not empty *)
Definition property_line (d : db) (k line : bytes) : Prop :=
  exists v op dom part cat id name s rest x, recs d k = Some v /\ N.testbit (r_flags v) 1 = true
    /\ has_parts k [op; dom; B "U"; part; cat; id; name]
    /\ r_data v = (s ++ NUL :: rest) :: x /\ s <> [] /\ ~ In NUL s
    /\ line = name ++ B "=" ++ s ++ [NUL].
(* The lines of the records keys, in their order and each once *)
Inductive lines_of (d : db) : list bytes -> list bytes -> Prop :=
| Lo_nil : lines_of d [] []
| Lo_line : forall k line keys lines, property_line d k line -> lines_of d keys lines -> lines_of d (k :: keys) (line :: lines)
| Lo_none : forall k keys lines, (forall line, ~ property_line d k line) -> lines_of d keys lines -> lines_of d (k :: keys) lines.
