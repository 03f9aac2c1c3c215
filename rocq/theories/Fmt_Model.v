(* The printing of documents, src/internal/fmt.c, as what each call adds to the buffer.  The buffer is taken to have room (its
   failures are those of src/base/buf.c) and no argument to be NULL; the NUL added by each formatting is rewound (l. 33-35), so
   calls simply add.  Strings are without their NUL.  A level below 0 indents like 0. *)
From Verif Require Import Base UtilStr_Model Base64_Model.
Local Open Scope nat_scope.

(* fmt_output_t, src/include/internal/fmt.h:21-26, but FMT_NONE *)
Inductive fmt := TABLE | JSON | ENV.
Definition LF : byte := ascii_of_nat 10.
Definition QUOTE : byte := ascii_of_nat 34.
(* _print_indent, src/internal/fmt.c:63-75 *)
Fixpoint indent (level : nat) : bytes := match level with O => [] | S n => B "    " ++ indent n end.
(* JOIN_STR, src/internal/fmt.c:21 *)
Definition join_str (f : fmt) : bytes := match f with TABLE => B ": " | _ => B "=" end.
(* the line end, comma and indentation most calls begin with, e.g. src/internal/fmt.c:116-118 *)
Definition break (comma : bool) (level : nat) : bytes := (if comma then B "," else []) ++ LF :: indent level.
(* %u, PRIu64 and PRIi64 *)
Definition print_u (n : N) : bytes := uint_chars (N.to_uint n).
Definition quoted (s : bytes) : bytes := QUOTE :: s ++ [QUOTE].
(* _print_binary, src/internal/fmt.c:41-60: the base64 text without its NUL *)
Definition binary (s : bytes) : bytes := removelast (enc_loop s).

Inductive op :=
| DocStart (level : nat) | DocEnd (level : nat) | ArrStart (level : nat) (name : bytes) (comma : bool) | ArrEnd (level : nat)
| ElmStart (level : nat) (comma : bool) | ElmEnd (level : nat) | ElmName (level : nat) (name : bytes) (comma : bool)
| FldStr (level : nat) (name value : bytes) (comma : bool) | FldBin (level : nat) (name value : bytes) (comma : bool)
| FldUint (level : nat) (name : bytes) (value : N) (comma : bool) | FldUint64 (level : nat) (name : bytes) (value : N) (comma : bool)
| FldInt64 (level : nat) (name : bytes) (value : Z) (comma : bool) | FldBool (level : nat) (name : bytes) (value comma : bool)
| AUint (level : nat) (value : N) (comma : bool) | AStr (level : nat) (value : bytes) (comma : bool) | ABin (level : nat) (value : bytes) (comma : bool)
| NullByte.
Definition emit (f : fmt) (o : op) : bytes :=
  match o with
  (* fmt_doc_start, src/internal/fmt.c:77-91 *)
  | DocStart l => match f with JSON => indent l ++ B "{" | _ => [] end
  (* fmt_doc_end, src/internal/fmt.c:93-109 *)
  | DocEnd l => match f with JSON => LF :: indent l ++ B "}" ++ [LF] | _ => [] end
  (* fmt_arr_start, src/internal/fmt.c:111-130 *)
  | ArrStart l n c => match f with JSON => break c l ++ quoted n ++ B ": [" | ENV => n ++ B "=" ++ [QUOTE] | TABLE => n ++ B ":" ++ [LF] end
  (* fmt_arr_end, src/internal/fmt.c:132-150 *)
  | ArrEnd l => match f with JSON => LF :: indent l ++ B "]" | ENV => [QUOTE; LF] | TABLE => [] end
  (* fmt_elm_start, src/internal/fmt.c:152-169 *)
  | ElmStart l c => match f with JSON => break c l ++ B "{" | TABLE => if c then [LF] else [] | ENV => [] end
  (* fmt_elm_end, src/internal/fmt.c:171-187 *)
  | ElmEnd l => match f with JSON => LF :: indent l ++ B "}" | _ => [] end
  (* fmt_elm_name, src/internal/fmt.c:189-206 *)
  | ElmName l n c => match f with JSON => break c l ++ quoted n ++ B ":" ++ [LF] | TABLE => (if c then [LF] else []) ++ n ++ B ":" ++ [LF] | ENV => [] end
  (* fmt_fld_str, src/internal/fmt.c:208-225 *)
  | FldStr l n v c => match f with JSON => break c l ++ quoted n ++ B ": " ++ quoted v | _ => n ++ join_str f ++ v ++ [LF] end
  (* fmt_fld_bin, src/internal/fmt.c:227-257 *)
  | FldBin l n v c => match f with JSON => break c l ++ quoted n ++ B ": " ++ quoted (binary v) | _ => n ++ join_str f ++ binary v ++ [LF] end
  (* fmt_fld_uint, src/internal/fmt.c:259-276; fmt_fld_uint64, 278-295 *)
  | FldUint l n v c | FldUint64 l n v c => match f with JSON => break c l ++ quoted n ++ B ": " ++ print_u v | _ => n ++ join_str f ++ print_u v ++ [LF] end
  (* fmt_fld_int64, src/internal/fmt.c:297-314 *)
  | FldInt64 l n v c => match f with JSON => break c l ++ quoted n ++ B ": " ++ print_d v | _ => n ++ join_str f ++ print_d v ++ [LF] end
  (* fmt_fld_bool, src/internal/fmt.c:316-336 *)
  | FldBool l n v c =>
    match f with
    | JSON => break c l ++ B "{" ++ quoted n ++ B ": " ++ (if v then B "true" else B "false") ++ B "}"
    | ENV => n ++ B "=" ++ (if v then B "1" else B "0") ++ [LF]
    | TABLE => if v then n ++ [LF] else []
    end
  (* fmt_arr_fld_uint, src/internal/fmt.c:337-354 *)
  | AUint l v c => match f with JSON => break c l ++ print_u v | TABLE => print_u v ++ [LF] | ENV => [] end
  (* fmt_arr_fld_str, src/internal/fmt.c:356-375 *)
  | AStr l v c => match f with JSON => break c l ++ quoted v | ENV => (if c then B "," else []) ++ v | TABLE => v ++ [LF] end
  (* fmt_arr_fld_bin, src/internal/fmt.c:377-401 *)
  | ABin l v c => match f with JSON => break c l ++ quoted (binary v) | TABLE => binary v ++ [LF] | ENV => [] end
  (* fmt_null_byte, src/internal/fmt.c:403-406 *)
  | NullByte => [NUL]
  end.
Definition emits (f : fmt) (os : list op) : bytes := List.concat (map (emit f) os).
