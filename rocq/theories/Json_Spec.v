(* JSON texts, RFC 8259, read by recursive descent.  Strings are bytes: that they are UTF-8 is not looked at. *)
From Verif Require Import Base.
Local Open Scope nat_scope.

Inductive json := JNull | JBool (b : bool) | JInt (z : Z) | JReal (lexeme : bytes) | JStr (s : bytes) | JArr (l : list json) | JObj (l : list (bytes * json)).
Definition is_ws (c : byte) : bool := (byteN c =? 32)%N || (byteN c =? 9)%N || (byteN c =? 10)%N || (byteN c =? 13)%N.
Fixpoint skip (s : bytes) : bytes := match s with c :: t => if is_ws c then skip t else s | [] => [] end.
Definition is_digit (c : byte) : bool := (48 <=? byteN c)%N && (byteN c <=? 57)%N.
Fixpoint digits (s : bytes) : bytes * bytes := match s with c :: t => if is_digit c then let '(d, r) := digits t in (c :: d, r) else ([], s) | [] => ([], []) end.
Definition decimal_value (s : bytes) : N := fold_left (fun a c => (10 * a + (byteN c - 48))%N) s 0%N.
Definition is_char (s : string) (c : byte) : bool := existsb (Ascii.eqb c) (B s).
(* frac and exp *)
Definition fraction (s : bytes) : option (bytes * bytes) :=
  match s with
  | c :: t => if is_char "." c then let '(d, r) := digits t in match d with [] => None | _ => Some (c :: d, r) end else Some ([], s)
  | [] => Some ([], [])
  end.
Definition exponent (s : bytes) : option (bytes * bytes) :=
  match s with
  | c :: t =>
    if is_char "eE" c then
      let '(sg, t) := (match t with x :: u => if is_char "+-" x then ([x], u) else ([], t) | [] => ([], []) end) in
      let '(d, r) := digits t in
      match d with [] => None | _ => Some (c :: sg ++ d, r) end
    else Some ([], s)
  | [] => Some ([], [])
  end.
Definition number (s : bytes) : option (json * bytes) :=
  let '(neg, s) := (match s with c :: t => if is_char "-" c then (true, t) else (false, s) | [] => (false, s) end) in
  let '(d, r) := digits s in
  match d with
  | [] => None
  | c :: d' =>
    if is_char "0" c && negb (length d' =? 0) then None
    else
      match fraction r with
      | None => None
      | Some (fr, r) =>
        match exponent r with
        | None => None
        | Some (ex, r) =>
          match fr ++ ex with
          | [] => Some (JInt (if neg then - Z.of_N (decimal_value d) else Z.of_N (decimal_value d)), r)
          | _ => Some (JReal ((if neg then B "-" else []) ++ d ++ fr ++ ex), r)
          end
        end
      end
  end.
(* strings, after the opening quote *)
Definition hex (c : byte) : option N :=
  let n := byteN c in
  if (48 <=? n)%N && (n <=? 57)%N then Some (n - 48)%N else if (65 <=? n)%N && (n <=? 70)%N then Some (n - 55)%N else if (97 <=? n)%N && (n <=? 102)%N then Some (n - 87)%N else None.
Definition utf8 (n : N) : bytes :=
  if (n <? 128)%N then [ascii_of_N n]
  else if (n <? 2048)%N then [ascii_of_N (192 + n / 64); ascii_of_N (128 + n mod 64)]
  else [ascii_of_N (224 + n / 4096); ascii_of_N (128 + n / 64 mod 64); ascii_of_N (128 + n mod 64)].
Definition unescape (c : byte) : option byte :=
  if is_char "/" c || (byteN c =? 34)%N || (byteN c =? 92)%N then Some c
  else if is_char "b" c then Some (ascii_of_nat 8) else if is_char "f" c then Some (ascii_of_nat 12) else if is_char "n" c then Some (ascii_of_nat 10)
  else if is_char "r" c then Some (ascii_of_nat 13) else if is_char "t" c then Some (ascii_of_nat 9) else None.
Fixpoint str_end (s : bytes) : option (bytes * bytes) :=
  let add x (r : option (bytes * bytes)) := match r with Some (y, t) => Some (x ++ y, t) | None => None end in
  match s with
  | [] => None
  | c :: t =>
    if (byteN c =? 34)%N then Some ([], t)
    else if (byteN c =? 92)%N then
      match t with
      | [] => None
      | e :: t =>
        if is_char "u" e then
          match t with
          | h1 :: h2 :: h3 :: h4 :: t =>
            match hex h1, hex h2, hex h3, hex h4 with Some a, Some b, Some c, Some d => add (utf8 (((a * 16 + b) * 16 + c) * 16 + d)) (str_end t) | _, _, _, _ => None end
          | _ => None
          end
        else match unescape e with Some x => add [x] (str_end t) | None => None end
      end
    else if (byteN c <? 32)%N then None
    else add [c] (str_end t)
  end.
Fixpoint strip (w s : bytes) : option bytes :=
  match w, s with [], _ => Some s | x :: w, y :: s => if Ascii.eqb x y then strip w s else None | _ :: _, [] => None end.
(* values; fuel is at least the length of what is left *)
Fixpoint value (fuel : nat) (s : bytes) : option (json * bytes) :=
  match fuel with
  | O => None
  | S f =>
    match skip s with
    | [] => None
    | c :: t =>
      if is_char "{" c then
        match skip t with d :: r => if is_char "}" d then Some (JObj [], r) else match members f t with Some (l, r) => Some (JObj l, r) | None => None end | [] => None end
      else if is_char "[" c then
        match skip t with d :: r => if is_char "]" d then Some (JArr [], r) else match elements f t with Some (l, r) => Some (JArr l, r) | None => None end | [] => None end
      else if (byteN c =? 34)%N then match str_end t with Some (x, r) => Some (JStr x, r) | None => None end
      else
        match strip (B "true") (c :: t), strip (B "false") (c :: t), strip (B "null") (c :: t) with
        | Some r, _, _ => Some (JBool true, r)
        | _, Some r, _ => Some (JBool false, r)
        | _, _, Some r => Some (JNull, r)
        | None, None, None => number (c :: t)
        end
    end
  end
with members (fuel : nat) (s : bytes) : option (list (bytes * json) * bytes) :=
  match fuel with
  | O => None
  | S f =>
    match skip s with
    | q :: t =>
      if (byteN q =? 34)%N then
        match str_end t with
        | None => None
        | Some (n, r) =>
          match skip r with
          | d :: r =>
            if is_char ":" d then
              match value f r with
              | None => None
              | Some (v, r) =>
                match skip r with
                | d :: r => if is_char "," d then match members f r with Some (l, r) => Some ((n, v) :: l, r) | None => None end
                            else if is_char "}" d then Some ([(n, v)], r) else None
                | [] => None
                end
              end
            else None
          | [] => None
          end
        end
      else None
    | [] => None
    end
  end
with elements (fuel : nat) (s : bytes) : option (list json * bytes) :=
  match fuel with
  | O => None
  | S f =>
    match value f s with
    | None => None
    | Some (v, r) =>
      match skip r with
      | d :: r => if is_char "," d then match elements f r with Some (l, r) => Some (v :: l, r) | None => None end
                  else if is_char "]" d then Some ([v], r) else None
      | [] => None
      end
    end
  end.
Definition parse (s : bytes) : option json :=
  match value (S (length s)) s with Some (v, r) => match skip r with [] => Some v | _ => None end | None => None end.
Example parse_case : parse (B "{ ""a"" : [1, -20 , true,null, ""x\nA/""], ""b"":{}, ""c"": 1.5e+3 }"%string) =
  Some (JObj [(B "a", JArr [JInt 1; JInt (-20); JBool true; JNull; JStr (B "x" ++ [ascii_of_nat 10] ++ B "A/")]); (B "b", JObj []); (B "c", JReal (B "1.5e+3"))]).
Proof. vm_compute. reflexivity. Qed.
Example parse_bad : parse (B "{""a"": 01}"%string) = None /\ parse (B "[1,]"%string) = None /\ parse (B "[""a"" ""b""]"%string) = None /\ parse (B "{""a"": 1} x"%string) = None /\ parse (B "[-]"%string) = None
  /\ parse (B "{""a""}"%string) = None /\ parse (B "[""a\x""]"%string) = None /\ parse (B "["%string) = None.
Proof. repeat split. Qed.
