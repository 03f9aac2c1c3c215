From Verif Require Import Base UbrDb_Model UbrRec_Model.
Local Open Scope nat_scope.

(* What a record is made of: numbers that fit their fields and an owner name that is a C string *)
Definition good_header (seq flags gen : N) (owner : bytes) : Prop :=
  (seq < 2 ^ 64)%N /\ (flags < 2 ^ 64)%N /\ (gen < 2 ^ 16)%N /\ ~ In NUL owner /\ (N.of_nat (length owner) < 2 ^ 63)%N.

(* Records as the store holds them: a key that is a C string, a value with at least a header and an owner, the kind of value
   as the flags say *)
Definition good_record (r : wrec) : Prop :=
  (w_flags r < 2 ^ 32)%N /\ ~ In NUL (w_key r)
  /\ match w_val r with
     | Scalar b => N.testbit (w_flags r) 0 = false /\ 18 < length b
     | Vector v => N.testbit (w_flags r) 0 = true /\ 4 <= length v
                   /\ length (nth 0 v []) = 8 /\ length (nth 1 v []) = 8 /\ length (nth 2 v []) = 2
     end.
