(* Splitting strings into vectors, src/internal/util.c:271-321 and 361-495. *)
From Verif Require Import Base.
Local Open Scope nat_scope.

(* strchr of a character other than NUL in a set given as a string. *)
Definition inset (set : bytes) (c : byte) : bool := existsb (Ascii.eqb c) set.
(* Where a character first occurs. *)
Fixpoint index (c : byte) (s : bytes) : option nat :=
  match s with
  | [] => None
  | x :: t => if Ascii.eqb x c then Some 0 else option_map S (index c t)
  end.
(* strspn/strcspn: length of the longest prefix of characters satisfying f *)
Fixpoint span (f : byte -> bool) (s : bytes) : nat :=
  match s with c :: t => if f c then S (span f t) else 0 | [] => 0 end.

(* The loop of util_str_iterate_tokens, src/internal/util.c:296-318, as the list of calls of token_fn: token and merge_back;
   None for -EINVAL.  The two token functions of this file never fail.  Out of fuel is a failure as well; the fuel given
   below never runs out. *)
Fixpoint iterate (fuel : nat) (delims quotes : bytes) (merge_back : bool) (s : bytes) : option (list (bytes * bool)) :=
  match fuel with
  | O => None
  | S fuel =>
      match s with
      | [] => Some []
      | _ =>
          let s := skipn (span (inset delims) s) s in
          match s with
          | [] => Some []
          | c :: t =>
              let next tok s :=
                let mb := match s with [] => false | x :: _ => negb (inset delims x) end in
                option_map (cons (tok, merge_back)) (iterate fuel delims quotes mb s) in
              if inset quotes c then
                match index c t with
                | None => None
                | Some n => next (firstn n t) (skipn (S n) t)
                end
              else
                let len := span (fun x => negb (inset (quotes ++ delims) x)) s in
                next (firstn len s) (skipn len s)
          end
      end
  end.
(* util_str_iterate_tokens, src/internal/util.c:271-321; NULL for any of the strings is None. *)
Definition or_empty (s : option bytes) : bytes := match s with Some s => s | None => [] end.
Definition iterate_tokens (s delims quotes : option bytes) : option (list (bytes * bool)) :=
  match s with
  | None => Some []
  | Some s => iterate (S (length s)) (or_empty delims) (or_empty quotes) false s
  end.

(* _count_token, src/internal/util.c:361-375: tokens and chars *)
Definition count_token (c : nat * nat) (call : bytes * bool) : nat * nat :=
  let (tok, mb) := call in (if mb then fst c else S (fst c), snd c + length tok).

(* The vector while it is filled: the pointers, each uninitialised, NULL or an offset into the memory behind them, and that
   memory. *)
Inductive slot := Uninit | Null | At (o : nat).
Definition put_slot (l : list slot) (i : nat) (x : slot) : outcome (list slot) :=
  if i <? length l then Ok (list_set l i x) else UB.
Definition put_bytes (area : bytes) (o : nat) (d : bytes) : outcome bytes :=
  if o + length d <=? length area then Ok (firstn o area ++ d ++ skipn (o + length d) area) else UB.

(* struct strv_iter and _copy_token_to_strv, src/internal/util.c:377-401 *)
Record copier := { strv : list slot; area : bytes; ci : nat; cs : nat }.
Definition copy_token (c : copier) (call : bytes * bool) : outcome copier :=
  let (tok, mb) := call in
  let! (sl, i, s) :=
    (if mb && negb (ci c =? 0) then (if cs c =? 0 then UB else Ok (strv c, ci c - 1, cs c - 1))
     else let! sl := put_slot (strv c) (ci c) (At (cs c)) in Ok (sl, ci c, cs c)) in
  let! a := put_bytes (area c) s (tok ++ [NUL]) in
  Ok {| strv := sl; area := a; ci := i + 1; cs := s + length tok + 1 |}.
Fixpoint copy_tokens (c : copier) (l : list (bytes * bool)) : outcome copier :=
  match l with [] => Ok c | x :: t => let! c := copy_token c x in copy_tokens c t end.

(* _get_strv_header_size and _get_strv_full_mem_size, src/internal/util.c:403-417 *)
Definition header_size (tokens : nat) : nat := (tokens + 1) * 8.
Definition full_size (tokens chars : nat) : nat := header_size tokens + chars + tokens.

(* malloc: the contents are indeterminate, here some fixed character other than NUL *)
Definition fresh (n : nat) : bytes := repeat "165"%char n.

(* util_str_comb_to_strv, src/internal/util.c:419-458.  [mem] is the memory given, if any.  Result: NULL, or the pointers and
   the memory behind them.  Simplification: malloc succeeds. *)
Definition comb_to_strv (mem : option bytes) (prefix str suffix delims quotes : option bytes) : outcome (option (list slot * bytes)) :=
  match iterate_tokens prefix delims quotes, iterate_tokens str delims quotes, iterate_tokens suffix delims quotes with
  | Some l1, Some l2, Some l3 =>
      let (tokens, chars) := fold_left count_token l3 (fold_left count_token l2 (fold_left count_token l1 (0, 0))) in
      let full := full_size tokens chars in
      let go (m : bytes) :=
        let c := {| strv := repeat Uninit (tokens + 1); area := skipn (header_size tokens) m; ci := 0; cs := 0 |} in
        let! c := copy_tokens c l1 in let! c := copy_tokens c l2 in let! c := copy_tokens c l3 in
        let! sl := put_slot (strv c) tokens Null in
        Ok (Some (sl, area c)) in
      match mem with
      | Some m => if length m <? full then Ok None else go m
      | None => go (fresh full)
      end
  | _, _, _ => Ok None
  end.

(* util_strv_copy, src/internal/util.c:460-495 *)
Definition strv_copy (mem : option bytes) (l : list bytes) : outcome (option (list slot * bytes)) :=
  let calls := map (fun t => (t, false)) l in
  let (tokens, chars) := fold_left count_token calls (0, 0) in
  let full := full_size tokens chars in
  let go (m : bytes) :=
    let! c := copy_tokens {| strv := repeat Uninit (tokens + 1); area := skipn (header_size tokens) m; ci := 0; cs := 0 |} calls in
    Ok (Some (strv c, area c)) in
  match mem with
  | Some m => if length m <? full then Ok None else go m
  | None => go (fresh full)
  end.
