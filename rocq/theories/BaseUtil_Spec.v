(* What the utilities of libsidbase are to do. *)
From Verif Require Import Base Tok_Spec UtilStr_Spec BaseUtil_Model.
Local Open Scope nat_scope.

(* A decimal number as text, and its value (UtilStr_Spec) *)
Definition number (s : bytes) : Prop := s <> [] /\ forall c, In c s -> digit c.
Definition a_blank (c : byte) : Prop := In c (map ascii_of_nat [32; 9; 10; 11; 12; 13]).
(* all the texts the code takes for a number *)
Definition taken_for (s : bytes) (v : N) : Prop :=
  (s = [] /\ v = 0%N) \/
  exists ws sign ds, s = ws ++ sign ++ ds /\ (forall c, In c ws -> a_blank c) /\ number ds /\ (dec_value ds < 2 ^ 64)%N
    /\ ((sign = [] \/ sign = B "+") /\ v = dec_value ds \/ sign = B "-" /\ v = ((2 ^ 64 - dec_value ds) mod 2 ^ 64)%N).

(* The words of a kernel command line *)
Definition cmdline_words (line : bytes) (ws : list bytes) : Prop :=
  words_of (Some (map ascii_of_nat [32; 9; 10])) None (Some line) = Some ws.
Definition is_arg (arg w : bytes) : Prop := w = arg \/ exists v, w = arg ++ B "=" ++ v.
(* the first word that is the argument *)
Definition first_arg (arg : bytes) (ws : list bytes) (w : bytes) : Prop :=
  exists a b, ws = a ++ w :: b /\ is_arg arg w /\ forall x, In x a -> ~ is_arg arg x.
