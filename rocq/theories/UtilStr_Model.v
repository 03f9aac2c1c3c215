(* String utilities, src/internal/util.c.  Strings given to a function are lists of characters without the final NUL,
   memory that is written is a list of bytes; every access outside is UB. *)
From Verif Require Import Base Tok_Model.
Local Open Scope nat_scope.

(* The default sets, src/include/internal/util.h:71-76 *)
Definition DELIMS : bytes := map ascii_of_nat [32; 9; 13; 10; 11; 12].
Definition QUOTES : bytes := map ascii_of_nat [34; 39].
Definition EQ : byte := "="%char.

(* tolower in the C locale *)
Definition lower (c : byte) : byte :=
  let n := nat_of_ascii c in if (65 <=? n) && (n <=? 90) then ascii_of_nat (n + 32) else c.
(* strcasecmp(a, b) == 0 *)
Definition strcaseeq (a b : bytes) : bool := if list_eq_dec ascii_dec (map lower a) (map lower b) then true else false.

(* udev_action_str and udev_devtype_str, src/internal/util.c:43-51 and 80-84; the enumerations are
   src/include/internal/common.h:26-45 *)
Definition UDEV_ACTION_UNKNOWN := 0. Definition UDEV_ACTION_ADD := 1. Definition UDEV_ACTION_CHANGE := 2.
Definition UDEV_ACTION_REMOVE := 3. Definition UDEV_ACTION_MOVE := 4. Definition UDEV_ACTION_ONLINE := 5.
Definition UDEV_ACTION_OFFLINE := 6. Definition UDEV_ACTION_BIND := 7. Definition UDEV_ACTION_UNBIND := 8.
Definition udev_action_str : list bytes :=
  [B "unknown"; B "add"; B "change"; B "remove"; B "move"; B "online"; B "offline"; B "bind"; B "unbind"].
Definition UDEV_DEVTYPE_UNKNOWN := 0. Definition UDEV_DEVTYPE_DISK := 1. Definition UDEV_DEVTYPE_PARTITION := 2.
Definition udev_devtype_str : list bytes := [B "unknown"; B "disk"; B "partition"].
Definition table (t : list bytes) (i : nat) : outcome bytes := match nth_error t i with Some s => Ok s | None => UB end.

(* util_udev_str_to_action, src/internal/util.c:53-73 *)
Definition str_to_action (s : bytes) : nat :=
  let is a := strcaseeq s (nth a udev_action_str []) in
  if is UDEV_ACTION_ADD then UDEV_ACTION_ADD
  else if is UDEV_ACTION_CHANGE then UDEV_ACTION_CHANGE
  else if is UDEV_ACTION_REMOVE then UDEV_ACTION_REMOVE
  else if is UDEV_ACTION_MOVE then UDEV_ACTION_MOVE
  else if is UDEV_ACTION_ONLINE then UDEV_ACTION_ONLINE
  else if is UDEV_ACTION_OFFLINE then UDEV_ACTION_OFFLINE
  else if is UDEV_ACTION_BIND then UDEV_ACTION_BIND
  else if is UDEV_ACTION_UNBIND then UDEV_ACTION_UNBIND
  else UDEV_ACTION_UNKNOWN.
(* util_udev_action_to_str, src/internal/util.c:75-78 *)
Definition action_to_str (a : nat) : outcome bytes := table udev_action_str a.
(* util_udev_str_to_devtyoe, src/internal/util.c:86-94 *)
Definition str_to_devtype (s : bytes) : nat :=
  if strcaseeq s (nth UDEV_DEVTYPE_DISK udev_devtype_str []) then UDEV_DEVTYPE_DISK
  else if strcaseeq s (nth UDEV_DEVTYPE_PARTITION udev_devtype_str []) then UDEV_DEVTYPE_PARTITION
  else UDEV_DEVTYPE_UNKNOWN.
(* util_udev_devtype_to_str, src/internal/util.c:96-99 *)
Definition devtype_to_str (a : nat) : outcome bytes := table udev_devtype_str a.

(* Reading a character, strspn/strcspn and strchr at a position of a buffer: UB once they would read past its end.
   [run] gives the first position at which a character does not satisfy f. *)
Definition at_ (b : bytes) (i : nat) : outcome byte := match nth_error b i with Some c => Ok c | None => UB end.
Definition run (f : byte -> bool) (b : bytes) (i : nat) : outcome nat :=
  let j := i + span f (skipn i b) in if j <? length b then Ok j else UB.
Definition strspn (set : bytes) := run (inset set).
Definition strcspn (set : bytes) := run (fun c => negb (inset (NUL :: set) c)).
(* strchr(set, c) on a string literal: also finds its terminating NUL *)
Definition in_literal (set : bytes) (c : byte) : bool := inset (set ++ [NUL]) c.
(* strchr(str, c) on the buffer: the position, or None for NULL *)
Definition strchr (b : bytes) (i : nat) (c : byte) : outcome (option nat) :=
  let! j := run (fun x => negb (Ascii.eqb x c) && negb (Ascii.eqb x NUL)) b i in
  let! x := at_ b j in
  Ok (if Ascii.eqb x c then Some j else None).

(* util_str_get_kv, src/internal/util.c:124-192.  Result: the code, the string as modified, and the positions of key and
   value in it. *)
Definition kv_result := (Z * bytes * option (nat * nat))%type.
Definition get_kv (b : bytes) : outcome kv_result :=
  let! c := at_ b 0 in
  if Ascii.eqb c NUL then Ok (- ENODATA, b, None)%Z else
  let! str := strspn DELIMS b 0 in
  let! c := at_ b str in
  if Ascii.eqb c NUL then Ok (- ENODATA, b, None)%Z else
  if Ascii.eqb c EQ then Ok (- EINVAL, b, None)%Z else
  let k := str in
  let! str := strcspn (DELIMS ++ [EQ]) b str in
  let p := str in
  let! c := at_ b str in
  let! str := (if Ascii.eqb c EQ then Ok str else strspn DELIMS b str) in
  let! c := at_ b str in
  if negb (Ascii.eqb c EQ) then Ok (- EINVAL, b, None)%Z else
  let! b := put_bytes b p [NUL] in
  let! str := strspn DELIMS b (str + 1) in
  let! c := at_ b str in
  if in_literal QUOTES c then
    let v := str + 1 in
    let! e := strchr b v c in
    match e with
    | None => Ok (- EINVAL, b, None)%Z
    | Some e =>
        let! b := put_bytes b e [NUL] in
        let! str := (let! c := at_ b (e + 1) in if Ascii.eqb c NUL then Ok (e + 1) else strspn DELIMS b (e + 1)) in
        let! c := at_ b str in
        Ok (if Ascii.eqb c NUL then (0%Z, b, Some (k, v)) else ((- EINVAL)%Z, b, None))
    end
  else
    let v := str in
    let! str := strcspn (DELIMS ++ QUOTES) b str in
    let! c := at_ b str in
    if Ascii.eqb c NUL then Ok (0%Z, b, Some (k, v)) else
    if in_literal QUOTES c then Ok (- EINVAL, b, None)%Z else
    let p := str in
    let! str := strspn DELIMS b str in
    let! b := put_bytes b p [NUL] in
    let! c := at_ b str in
    Ok (if Ascii.eqb c NUL then (0%Z, b, Some (k, v)) else ((- EINVAL)%Z, b, None)).

(* strncmp(a, b, strlen(b)) == 0, or strncasecmp *)
Definition fold_case (ic : bool) (s : bytes) : bytes := if ic then map lower s else s.
Definition starts_with (ic : bool) (a b : bytes) : bool :=
  if list_eq_dec ascii_dec (fold_case ic (firstn (length b) a)) (fold_case ic b) then true else false.

(* util_str_rstr, src/internal/util.c:194-209; the position, None for NULL *)
Fixpoint rstr_loop (pos : nat) (h n : bytes) : option nat :=
  match pos with
  | O => None
  | S p => if starts_with false (skipn pos h) n then Some pos else rstr_loop p h n
  end.
Definition rstr (h n : bytes) : option nat :=
  if length h <? length n then None else rstr_loop (length h - length n) h n.

(* strstr and strcasestr *)
Fixpoint find_str (ic : bool) (h n : bytes) : option nat :=
  if starts_with ic h n then Some 0
  else match h with [] => None | _ :: t => option_map S (find_str ic t n) end.

(* util_str_combstr, src/internal/util.c:211-244; the position, None for NULL *)
Definition combstr (h : bytes) (prefix needle suffix : option bytes) (ic : bool) : option nat :=
  let p := or_empty prefix in let s := or_empty suffix in
  if length h <? length p + length (or_empty needle) + length s then None else
  let prefix_match := (length p =? 0) || starts_with ic h p in
  let suffix_match := (length s =? 0) || starts_with ic (skipn (length h - length s) h) s in
  match needle with
  | Some n => match find_str ic (skipn (length p) h) n with
              | Some i => if prefix_match && suffix_match then Some (length p + i) else None
              | None => None
              end
  | None => if prefix_match && suffix_match then Some 0 else None
  end.

(* The characters printf prints for "%.*s": up to a NUL, at most len; UB if the memory ends before *)
Fixpoint upto (len : nat) (m : bytes) : outcome bytes :=
  match len, m with
  | O, _ => Ok []
  | S len, [] => UB
  | S len, c :: t => if Ascii.eqb c NUL then Ok [] else let! r := upto len t in Ok (c :: r)
  end.
Definition INT_MAX : N := 2147483647.
(* util_str_copy_len, src/internal/util.c:246-269.  [m] is the memory str points to, [buf] the buffer and its size.  Result:
   NULL or the contents of the buffer or of the new string.  Simplification: asprintf does not fail. *)
Definition copy_len (m : bytes) (len : N) (buf : option bytes) : outcome (option bytes) :=
  if (INT_MAX <? len)%N then Ok None else
  match buf with
  | Some b =>
      if (length b =? 0) || (N.of_nat (length b - 1) <? len)%N then Ok None else
      let! s := upto (N.to_nat len) m in
      let! b := put_bytes b 0 (s ++ [NUL]) in Ok (Some b)
  | None => let! s := upto (N.to_nat len) m in Ok (Some (s ++ [NUL]))
  end.

(* memcpy source: len bytes at offset of a memory; both may be any size_t *)
Definition get_bytes (m : bytes) (offset len : N) : outcome bytes :=
  if (offset + len <=? N.of_nat (length m))%N then Ok (firstn (N.to_nat len) (skipn (N.to_nat offset) m)) else UB.
(* util_str_copy_substr, src/internal/util.c:497-514: str is the string, mem the destination memory, if any.
   Simplification: strndup does not fail; strndup of a position outside the string is UB, and with a len beyond the end
   copies up to the end. *)
Definition copy_substr (mem : option bytes) (str : bytes) (offset len : N) : outcome (option bytes) :=
  if (N.of_nat (length str) <? wrap64 (offset + len))%N then Ok None else
  match mem with
  | None =>
      if (N.of_nat (length str) <? offset)%N then UB else
      Ok (Some (firstn (N.to_nat (N.min len (N.of_nat (length str)))) (skipn (N.to_nat offset) str) ++ [NUL]))
  | Some b =>
      if (N.of_nat (length b) <? wrap64 (len + 1))%N then Ok None else
      let! d := get_bytes (str ++ [NUL]) offset len in
      let! b := put_bytes b 0 (d ++ [NUL]) in Ok (Some b)
  end.

(* util_str_comb_to_str, src/internal/util.c:323-359.  Simplification: malloc succeeds. *)
Definition comb_to_str (mem : option bytes) (prefix str suffix : option bytes) : outcome (option bytes) :=
  let p := or_empty prefix in let s := or_empty str in let x := or_empty suffix in
  let n := length p + length s + length x + 1 in
  let go (b : bytes) :=
    let! b := put_bytes b 0 p in
    let! b := put_bytes b (length p) s in
    let! b := put_bytes b (length p + length s) x in
    let! b := put_bytes b (length p + length s + length x) [NUL] in Ok (Some b) in
  match mem with
  | Some b => if length b <? n then Ok None else go b
  | None => go (fresh n)
  end.

(* util_proc_pid_to_str, src/internal/util.c:27-37: snprintf "%d", a size of 0 writes nothing; the code and the buffer.
   The decimal digits of a number are Coq's own. *)
Fixpoint uint_chars (d : Decimal.uint) : bytes :=
  match d with
  | Decimal.Nil => []
  | Decimal.D0 d => "0"%char :: uint_chars d | Decimal.D1 d => "1"%char :: uint_chars d | Decimal.D2 d => "2"%char :: uint_chars d
  | Decimal.D3 d => "3"%char :: uint_chars d | Decimal.D4 d => "4"%char :: uint_chars d | Decimal.D5 d => "5"%char :: uint_chars d
  | Decimal.D6 d => "6"%char :: uint_chars d | Decimal.D7 d => "7"%char :: uint_chars d | Decimal.D8 d => "8"%char :: uint_chars d
  | Decimal.D9 d => "9"%char :: uint_chars d
  end.
Definition print_d (z : Z) : bytes :=
  match Z.to_int z with Decimal.Pos d => uint_chars d | Decimal.Neg d => "-"%char :: uint_chars d end.
Definition snprintf (b s : bytes) : outcome bytes :=
  if length b =? 0 then Ok b else put_bytes b 0 (firstn (length b - 1) s ++ [NUL]).
Definition pid_to_str (pid : Z) (b : bytes) : outcome (Z * bytes) :=
  let s := print_d pid in
  let! b' := snprintf b s in
  Ok (if length b <=? length s then (-1)%Z else 0%Z, b').
