(* C03-C05: base64. *)
From Verif Require Import Base Base64_Model Base64_Spec Base64_Proofs.
Local Open Scope N_scope.

(* C03, and the writing half of C04: encoding into a destination of exactly encoded_len bytes fills all of it with
   alphabet characters and one final NUL, and decoding (with or without the NUL) returns the input. *)
Theorem base64_roundtrip : forall s d,
  s <> [] -> N.of_nat (List.length s) < 2 ^ 64 -> b64_len (N.of_nat (List.length s)) < 2 ^ 64 ->
  N.of_nat (List.length d) = encoded_len (N.of_nat (List.length s)) ->
  exists txt, base64_encode (Some s) (N.of_nat (List.length s)) (Some d) = Ok (Some (txt ++ [NUL]), 0%Z) /\
    List.length (txt ++ [NUL]) = List.length d /\
    forallb is_b64_char txt = true /\
    base64_decode txt = Ok (Some s) /\ base64_decode (txt ++ [NUL]) = Ok (Some s).
Proof. exact encode_roundtrip_lemma. Qed.
Print Assumptions base64_roundtrip.

Example base64_roundtrip_ex : let s := B "sid" ++ [NUL] in let d := repeat NUL 9 in
  s <> [] /\ N.of_nat (List.length s) < 2 ^ 64 /\ b64_len (N.of_nat (List.length s)) < 2 ^ 64 /\
  N.of_nat (List.length d) = encoded_len (N.of_nat (List.length s)) /\
  base64_encode (Some s) 4 (Some d) = Ok (Some (B "c2lkAA==" ++ [NUL]), 0%Z).
Proof. vm_compute. repeat split; discriminate. Qed.

(* The empty input is the exception: it encodes to the empty text, which the decoder rejects. *)
Theorem base64_roundtrip_empty_refuted :
  exists d txt, base64_encode (Some []) 0 (Some d) = Ok (Some (txt ++ [NUL]), 0%Z) /\ base64_decode txt = Ok None.
Proof. exact (ex_intro _ [NUL] (ex_intro _ [] (conj eq_refl eq_refl))). Qed.
Print Assumptions base64_roundtrip_empty_refuted.

(* C04: length computation incl. overflow, and refusal without writing. *)
Theorem base64_encoded_len : forall n,
  n < 2 ^ 64 -> encoded_len n = if b64_len n <? 2 ^ 64 then b64_len n else 0.
Proof. exact encoded_len_lemma. Qed.
Print Assumptions base64_encoded_len.

Example base64_encoded_len_ex : encoded_len 7 = 13 /\ encoded_len (2 ^ 64 - 1) = 0.
Proof. vm_compute. auto. Qed.

Theorem base64_encode_refused : forall s n d,
  n < 2 ^ 64 -> (2 ^ 64 <= b64_len n \/ N.of_nat (List.length d) < b64_len n) ->
  base64_encode s n (Some d) = Ok (Some d, (- EINVAL)%Z).
Proof. exact encode_refused_lemma. Qed.
Print Assumptions base64_encode_refused.

Example base64_encode_refused_ex : N.of_nat (List.length (B "1234")) < b64_len 1.
Proof. reflexivity. Qed.

(* C04: a longer destination keeps its bytes after the NUL. *)
Theorem base64_encode_rest_untouched : forall s d,
  N.of_nat (List.length s) < 2 ^ 64 -> b64_len (N.of_nat (List.length s)) < 2 ^ 64 ->
  b64_len (N.of_nat (List.length s)) <= N.of_nat (List.length d) ->
  exists txt, N.of_nat (List.length txt) + 1 = b64_len (N.of_nat (List.length s)) /\
    forallb is_b64_char txt = true /\
    base64_encode (Some s) (N.of_nat (List.length s)) (Some d) =
      Ok (Some (txt ++ NUL :: skipn (S (List.length txt)) d), 0%Z).
Proof. exact encode_rest_lemma. Qed.
Print Assumptions base64_encode_rest_untouched.

Example base64_encode_rest_untouched_ex :
  base64_encode (Some (B "ab")) 2 (Some (B "xxxxxxxx")) = Ok (Some (B "YWI=" ++ NUL :: B "xxx"), 0%Z).
Proof. reflexivity. Qed.

(* C05: for every input the decoder stays inside its allocation (no UB), and exactly characterises rejection. *)
Theorem base64_decode_total : forall src,
  let cs := List.filter is_b64_char src in
  let n := N.of_nat (List.length cs) in
  if (n =? 0) || negb (n mod 4 =? 0) || bad_padding cs
  then base64_decode src = Ok None
  else exists out, base64_decode src = Ok (Some out) /\ N.of_nat (List.length out) <= n / 4 * 3.
Proof. exact decode_total_lemma. Qed.
Print Assumptions base64_decode_total.

Example base64_decode_total_ex :
  base64_decode (B "c2 lk-AA==zz=z") = Ok (Some (B "sid" ++ [NUL])) /\ base64_decode (B "a===") = Ok None.
Proof. vm_compute. auto. Qed.
