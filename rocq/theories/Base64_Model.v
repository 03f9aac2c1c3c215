(* Model of src/base/conv-base64.c. *)
From Verif Require Import Base.
Local Open Scope N_scope.

(* base64_table, src/base/conv-base64.c:12 (the 64 characters; the array's 65th byte is the NUL). *)
Definition base64_table : bytes := B "ABCDEFGHIJKLMNOPQRSTUVWXYZabcdefghijklmnopqrstuvwxyz0123456789+/".

(* base64_table[i], i < 65 (index 64 is the terminating NUL). *)
Definition tbl (i : N) : byte := nth (N.to_nat i) base64_table NUL.

(* sid_conv_base64_encoded_len, src/base/conv-base64.c:21-31; size_t arithmetic modulo 2^64. *)
Definition encoded_len (in_len : N) : N :=
  if in_len =? 0 then 1
  else
    let out_len := wrap64 (1 + ((in_len - 1) / 3 + 1) * 4) in
    if out_len <? in_len then 0 else out_len.

(* The encoding loop and tail, src/base/conv-base64.c:56-76: the bytes stored through *pos++ in order,
   including the final NUL. *)
Fixpoint enc_loop (src : bytes) : bytes :=
  match src with
  | a :: b :: c :: t =>
      let a := byteN a in let b := byteN b in let c := byteN c in
      tbl (N.shiftr a 2)
        :: tbl (N.lor (N.shiftl (N.land a 3) 4) (N.shiftr b 4))
        :: tbl (N.lor (N.shiftl (N.land b 15) 2) (N.shiftr c 6))
        :: tbl (N.land c 63)
        :: enc_loop t
  | [a; b] =>
      let a := byteN a in let b := byteN b in
      [tbl (N.shiftr a 2);
       tbl (N.lor (N.shiftl (N.land a 3) 4) (N.shiftr b 4));
       tbl (N.shiftl (N.land b 15) 2);
       "="%char; NUL]
  | [a] =>
      let a := byteN a in
      [tbl (N.shiftr a 2); tbl (N.shiftl (N.land a 3) 4); "="%char; "="%char; NUL]
  | [] => [NUL]
  end.

(* sid_conv_base64_encode, src/base/conv-base64.c:43-78.  [src] is NULL or a block whose length is in_len
   (below 2^64); [dest] is NULL or a block of out_len bytes.  Writing past [dest] is undefined behaviour. *)
Definition base64_encode (src : option bytes) (in_len : N) (dest : option bytes) : outcome (option bytes * Z) :=
  let check_size := encoded_len in_len in
  match dest with
  | None => Ok (None, (- EINVAL)%Z)
  | Some d =>
      match src with
      | None =>
          if negb (in_len =? 0) || (check_size =? 0) || (N.of_nat (List.length d) <? check_size)
          then Ok (Some d, (- EINVAL)%Z)
          else Ok (Some (NUL :: tl d), 0%Z)
      | Some s =>
          if (check_size =? 0) || (N.of_nat (List.length d) <? check_size)
          then Ok (Some d, (- EINVAL)%Z)
          else
            let w := enc_loop (firstn (N.to_nat in_len) s) in
            if (List.length s <? N.to_nat in_len)%nat || (List.length d <? List.length w)%nat then UB
            else Ok (Some (w ++ skipn (List.length w) d), 0%Z)
      end
  end.

(* dtable, src/base/conv-base64.c:96-99: 0x80 marks characters that are ignored. *)
Fixpoint find_idx (c : byte) (l : bytes) (i : N) : option N :=
  match l with
  | [] => None
  | h :: t => match find_idx c t (i + 1) with
              | Some k => Some k          (* later assignments overwrite earlier ones *)
              | None => if Ascii.eqb h c then Some i else None
              end
  end.

Definition dtable (c : byte) : N :=
  if Ascii.eqb c "=" then 0
  else match find_idx c base64_table 0 with Some i => i | None => 128 end.

(* first pass, src/base/conv-base64.c:101-105 *)
Definition dec_count (src : bytes) : N :=
  N.of_nat (List.length (List.filter (fun c => negb (dtable c =? 128)) src)).

Definition low8 (x : N) : byte := ascii_of_N (x mod 256).

(* store through *pos++ into a block of [olen] bytes *)
Definition push (olen : N) (out : bytes) (b : byte) : outcome bytes :=
  if N.of_nat (List.length out) <? olen then Ok (out ++ [b]) else UB.

(* second pass, src/base/conv-base64.c:115-146.  [block] holds the first [count] entries of block[], [out] is
   out[0..pos).  Result: None for "invalid padding" (NULL), Some for the decoded bytes. *)
Fixpoint dec_loop (olen : N) (src : bytes) (block : list N) (pad : N) (out : bytes) : outcome (option bytes) :=
  match src with
  | [] => Ok (Some out)
  | c :: t =>
      let tmp := dtable c in
      if tmp =? 128 then dec_loop olen t block pad out
      else
        let pad := if Ascii.eqb c "=" then pad + 1 else pad in
        match block with
        | [b0; b1; b2] =>
            let b3 := tmp in
            let! out := push olen out (low8 (N.lor (N.shiftl b0 2) (N.shiftr b1 4))) in
            let! out := push olen out (low8 (N.lor (N.shiftl b1 4) (N.shiftr b2 2))) in
            let! out := push olen out (low8 (N.lor (N.shiftl b2 6) b3)) in
            if pad =? 0 then dec_loop olen t [] pad out
            else if pad =? 1 then Ok (Some (firstn (List.length out - 1) out))
            else if pad =? 2 then Ok (Some (firstn (List.length out - 2) out))
            else Ok None
        | _ => dec_loop olen t (block ++ [tmp]) pad out
        end
  end.

(* sid_conv_base64_decode, src/base/conv-base64.c:90-147.  None is NULL; malloc is assumed to succeed. *)
Definition base64_decode (src : bytes) : outcome (option bytes) :=
  let count := dec_count src in
  if (count =? 0) || negb (count mod 4 =? 0) then Ok None
  else dec_loop (count / 4 * 3) src [] 0 [].
