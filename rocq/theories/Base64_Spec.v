(* Specification vocabulary for base64 (RFC 4648 alphabet). *)
From Verif Require Import Base.
Local Open Scope N_scope.

Definition is_range (lo hi : ascii) (c : ascii) : bool :=
  (N_of_ascii lo <=? N_of_ascii c) && (N_of_ascii c <=? N_of_ascii hi).

(* Letters, digits, '+', '/'. *)
Definition is_b64_digit (c : ascii) : bool :=
  is_range "A" "Z" c || is_range "a" "z" c || is_range "0" "9" c || Ascii.eqb c "+" || Ascii.eqb c "/".

Definition is_b64_char (c : ascii) : bool := is_b64_digit c || Ascii.eqb c "=".

(* The mathematical encoded length including the terminating NUL. *)
Definition b64_len (n : N) : N := 4 * ((n + 2) / 3) + 1.

(* The first padded group of four characters, if there is one, has more than two padding characters. *)
Fixpoint bad_padding (chars : bytes) : bool :=
  match chars with
  | a :: b :: c :: d :: t =>
      let p := List.length (List.filter (Ascii.eqb "=") [a; b; c; d]) in
      match p with
      | O => bad_padding t
      | 1%nat | 2%nat => false
      | _ => true
      end
  | _ => false
  end.
