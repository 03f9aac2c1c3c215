(* What the string utilities are to do. *)
From Verif Require Import Base Tok_Model Tok_Spec UtilStr_Model.
Local Open Scope nat_scope.

Definition spaces (s : bytes) : Prop := forall c, In c s -> In c (map ascii_of_nat [32; 9; 13; 10; 11; 12]).
Definition a_quote (c : byte) : Prop := c = ascii_of_nat 34 \/ c = ascii_of_nat 39.
Definition a_space (c : byte) : Prop := In c (map ascii_of_nat [32; 9; 13; 10; 11; 12]).
Definition key_word (k : bytes) : Prop := k <> [] /\ forall c, In c k -> ~ a_space c /\ c <> "="%char.
Definition plain_value (v : bytes) : Prop := v <> [] /\ forall c, In c v -> ~ a_space c /\ ~ a_quote c.

(* [sp1] key [sp2] = [sp3] value [sp4], the value quoted or not *)
Definition pair_text (s k v : bytes) : Prop :=
  exists sp1 sp2 sp3 sp4, spaces sp1 /\ spaces sp2 /\ spaces sp3 /\ spaces sp4 /\ key_word k /\
    ((plain_value v /\ s = sp1 ++ k ++ sp2 ++ B "=" ++ sp3 ++ v ++ sp4)
     \/ exists q, a_quote q /\ ~ In q v /\ s = sp1 ++ k ++ sp2 ++ B "=" ++ sp3 ++ [q] ++ v ++ [q] ++ sp4).
(* the value is missing altogether *)
Definition valueless (s : bytes) : Prop :=
  exists sp1 k sp2 sp3, spaces sp1 /\ spaces sp2 /\ spaces sp3 /\ key_word k /\ s = sp1 ++ k ++ sp2 ++ B "=" ++ sp3.

(* n occurs in h at position i *)
Definition occurs (h n : bytes) (i : nat) : Prop := exists a b, h = a ++ n ++ b /\ length a = i.
Definition same (ic : bool) (a b : bytes) : Prop := if ic then map lower a = map lower b else a = b.
Definition occurs_as (ic : bool) (h n : bytes) (i : nat) : Prop := exists a m b, h = a ++ m ++ b /\ length a = i /\ same ic m n.

(* The text a pointer into memory means: up to the NUL *)
Definition text (m s : bytes) : Prop := ~ In NUL s /\ exists r, m = s ++ NUL :: r.

(* The text of at most [len] characters at a memory: up to a NUL, or [len] characters. *)
Definition text_upto (m : bytes) (len : nat) (s : bytes) : Prop :=
  ~ In NUL s /\ ((length s <= len /\ exists r, m = s ++ NUL :: r) \/ (length s = len /\ exists r, m = s ++ r)).
(* The number a decimal text means *)
Definition digit (c : byte) : Prop := (48 <= nat_of_ascii c <= 57)%nat.
Definition dec_value (s : bytes) : N := fold_left (fun a c => (10 * a + (N_of_ascii c - 48))%N) s 0%N.
Definition decimal (z : Z) (s : bytes) : Prop :=
  if (z <? 0)%Z then exists t, s = B "-" ++ t /\ t <> [] /\ (forall c, In c t -> digit c) /\ Z.of_N (dec_value t) = (- z)%Z
  else s <> [] /\ (forall c, In c s -> digit c) /\ Z.of_N (dec_value s) = z.
