(* Utilities of libsidbase, src/base/util.c.  Texts are lists of characters without the final NUL. *)
From Verif Require Import Base Tok_Model UtilStr_Model.
Local Open Scope nat_scope.

Definition ENOKEY : Z := 126.
Definition ULLONG_MAX : N := 18446744073709551615.

(* strtoull(s, &p, 10), C standard 7.22.1.4: blanks, a sign, digits.  Result: the value, whether errno is set, and what p points
   to; without digits p is the start. *)
Definition isspace (c : byte) : bool := inset (map ascii_of_nat [32; 9; 10; 11; 12; 13]) c.
Definition isdigit (c : byte) : bool := (48 <=? nat_of_ascii c) && (nat_of_ascii c <=? 57).
Fixpoint digits_value (acc : N) (s : bytes) : N :=
  match s with c :: t => digits_value (10 * acc + (N_of_ascii c - 48)) t | [] => acc end.
Definition strtoull (s : bytes) : N * bool * bytes :=
  let t := skipn (span isspace s) s in
  let '(neg, t) := match t with
                   | c :: t' => if Ascii.eqb c "-"%char then (true, t') else if Ascii.eqb c "+"%char then (false, t') else (false, t)
                   | [] => (false, t) end in
  let n := span isdigit t in
  if n =? 0 then (0%N, false, s) else
  let v := digits_value 0 (firstn n t) in
  if (ULLONG_MAX <? v)%N then (ULLONG_MAX, true, skipn n t)
  else (if neg then wrap64 (2 ^ 64 - v) else v, false, skipn n t).

(* sid_util_env_get_ull, src/base/util.c:20-40; [env] is what getenv finds.  Result: the code and the value stored, if any. *)
Definition env_get_ull (env : option bytes) (min max : N) : Z * option N :=
  match env with
  | None => ((- ENOKEY)%Z, None)
  | Some t =>
      let '(ret, err, p) := strtoull t in
      if err || negb (length p =? 0) then ((- EINVAL)%Z, None)
      else if negb (min =? max)%N && ((ret <? min) || (max <? ret))%N then ((- ERANGE)%Z, None)
      else (0%Z, Some ret)
  end.

(* read(2): each call is interrupted, fails, or delivers at most a number of bytes; nothing at the end of the stream.  Once the
   list is used up, each read delivers all it can. *)
Inductive read_event := Interrupted | Failed (e : Z) | Delivers (n : nat).
(* The loop of sid_util_fd_read_all, src/base/util.c:53-66, on the list of events: the code, the bytes placed into buf, the rest
   of the stream. *)
Fixpoint read_loop (ev : list read_event) (stream : bytes) (len : nat) (got : bytes) : Z * bytes * bytes :=
  match len with
  | O => (Z.of_nat (length got), got, stream)
  | _ =>
      match ev with
      | [] => let d := firstn len stream in (Z.of_nat (length (got ++ d)), got ++ d, skipn len stream)
      | Interrupted :: ev => read_loop ev stream len got
      | Failed e :: _ => ((- e)%Z, got, stream)
      | Delivers n :: ev =>
          let d := firstn (Nat.min (S n) len) stream in
          match d with
          | [] => (Z.of_nat (length got), got, stream)
          | _ => read_loop ev (skipn (length d) stream) (len - length d) (got ++ d)
          end
      end
  end.
Definition SSIZE_MAX : N := 9223372036854775807.
(* sid_util_fd_read_all, src/base/util.c:46-67 *)
Definition fd_read_all (ev : list read_event) (stream : bytes) (len : N) : Z * bytes * bytes :=
  if (SSIZE_MAX <? len)%N then ((- ERANGE)%Z, [], stream) else read_loop ev stream (N.to_nat len) [].

(* _get_proc_cmdline, src/base/util.c:73-103: the code and the contents placed into the buffer.  [cmdline] is the error of open
   or the events and contents of the file.  The loop is the one of fd_read_all but for what it returns.  Simplification: errno
   is set when open or read fail. *)
Definition get_proc_cmdline (cmdline : Z + list read_event * bytes) (size : nat) : Z * bytes :=
  match cmdline with
  | inl e => ((- e)%Z, [])
  | inr (ev, file) => let '(r, got, _) := read_loop ev file size [] in if (r <? 0)%Z then (r, []) else (0%Z, got)
  end.
Definition DELIM : bytes := map ascii_of_nat [32; 9; 10].
(* strlen of the static buffer: it is NUL behind what was read *)
Definition text_of (b : bytes) : bytes := firstn (span (fun c => negb (Ascii.eqb c NUL)) b) b.

(* The loop of sid_util_kernel_get_arg, src/base/util.c:126-153: r and the value.  [s] is the text at next. *)
Fixpoint arg_loop (fuel : nat) (s arg : bytes) (want : bool) : Z * option bytes :=
  match fuel with
  | O => (0%Z, None)
  | S fuel =>
      let s := skipn (span (inset DELIM) s) s in
      match s with
      | [] => (0%Z, None)
      | _ =>
          let w := span (fun c => negb (inset DELIM c)) s in     (* next - ptr, or end - ptr *)
          let next := if w <? length s then Some w else None in
          let val := match index EQ s, next with
                     | Some v, Some n => if n <=? v then None else Some v
                     | v, _ => v
                     end in
          let limit := match val, next with Some v, _ => v | None, Some n => n | None, None => length s end in
          if (length arg =? limit) && starts_with false s arg then
            if want then
              match val with
              | None => ((- EINVAL)%Z, None)
              | Some v => let limit := match next with Some n => n | None => length s end in
                          (1%Z, Some (firstn (limit - v) (skipn v s)))
              end
            else (1%Z, None)
          else match next with Some n => arg_loop fuel (skipn n s) arg want | None => (0%Z, None) end
      end
  end.
(* sid_util_kernel_get_arg, src/base/util.c:107-159.  [buf] is the text in the static buffer, kept from call to call.  Result: the
   value returned, *value if set, *ret_code, and the buffer.  Simplification: strndup succeeds. *)
Definition kernel_get_arg (buf : bytes) (cmdline : Z + list read_event * bytes) (arg : option bytes) (want : bool)
  : bool * option bytes * Z * bytes :=
  match arg with
  | None => (false, None, (- EINVAL)%Z, buf)
  | Some arg =>
      let '(r, buf) := match buf with [] => let '(r, b) := get_proc_cmdline cmdline 4096 in (r, text_of b) | _ => (0%Z, buf) end in
      if (r =? 0)%Z then
        let '(r, v) := arg_loop (S (length buf)) buf arg want in
        ((0 <? r)%Z, v, if (r <? 0)%Z then r else 0%Z, buf)
      else ((0 <? r)%Z, None, if (r <? 0)%Z then r else 0%Z, buf)
  end.

(* sid_util_sysfs_get, src/base/util.c:165-193.  [file] is the error of fopen or the contents.  fgets(buf, n): at most n - 1
   characters up to and including a newline, then NUL; NULL if n is 0 or the file is empty.  Simplifications: buf_size fits an
   int, reading does not fail.  Result: the code, the buffer, *char_count. *)
Definition fgets (b file : bytes) : outcome (option bytes) :=
  match length b with
  | O => Ok None
  | S n =>
      let k := span (fun c => negb (Ascii.eqb c "010"%char)) file in
      let d := firstn n (firstn (S k) file) in
      if (length d =? 0) && negb (n =? 0) then Ok None
      else let! b := put_bytes b 0 (d ++ [NUL]) in Ok (Some b)
  end.
Definition sysfs_get (file : Z + bytes) (b : bytes) : outcome (Z * bytes * option nat) :=
  match file with
  | inl e => Ok ((- e)%Z, b, None)
  | inr file =>
      let! r := fgets b file in
      match r with
      | None => Ok ((- EIO)%Z, b, None)
      | Some b =>
          let len := length (text_of b) in
          match nth_error b (len - 1) with
          | Some c => if negb (len =? 0) && Ascii.eqb c "010"%char
                      then let! b := put_bytes b (len - 1) [NUL] in Ok (0%Z, b, Some len)
                      else Ok (0%Z, b, Some (len + 1))
          | None => UB
          end
      end
  end.
