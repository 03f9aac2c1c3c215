From Verif Require Import Base UtilStr_Model Base64_Model Base64_Spec Fmt_Model Json_Spec.
Local Open Scope nat_scope.

(* strings that need no escaping *)
Definition plain_byte (c : byte) : bool := negb (byteN c =? 34)%N && negb (byteN c =? 92)%N && negb (byteN c <? 32)%N.
Definition plain (s : bytes) : Prop := forall c, In c s -> plain_byte c = true.
(* t is the base64 text of v *)
Definition base64_text (v t : bytes) : Prop := v = [] /\ t = [] \/ v <> [] /\ base64_decode t = Ok (Some v) /\ (forall c, In c t -> is_b64_char c = true).
(* The calls, at any levels, that properly nested make up a value: a member is called for with a comma unless it is the first.
   b64 gives the text of binary data. *)
Inductive fld_calls (b64 : bytes -> bytes) : bool -> bytes * json -> list op -> Prop :=
| F_str c l n v : plain n -> plain v -> fld_calls b64 c (n, JStr v) [FldStr l n v c]
| F_bin c l n v : plain n -> fld_calls b64 c (n, JStr (b64 v)) [FldBin l n v c]
| F_uint c l n v : plain n -> fld_calls b64 c (n, JInt (Z.of_N v)) [FldUint l n v c]
| F_uint64 c l n v : plain n -> fld_calls b64 c (n, JInt (Z.of_N v)) [FldUint64 l n v c]
| F_int64 c l n v : plain n -> fld_calls b64 c (n, JInt v) [FldInt64 l n v c]
| F_arr c l l' n vs os : plain n -> elts_calls b64 false vs os -> fld_calls b64 c (n, JArr vs) (ArrStart l n c :: os ++ [ArrEnd l'])
| F_elm c l l' l'' n ms os : plain n -> flds_calls b64 false ms os -> fld_calls b64 c (n, JObj ms) (ElmName l n c :: ElmStart l' false :: os ++ [ElmEnd l''])
with flds_calls (b64 : bytes -> bytes) : bool -> list (bytes * json) -> list op -> Prop :=
| Fs_none c : flds_calls b64 c [] []
| Fs_more c m ms os os' : fld_calls b64 c m os -> flds_calls b64 true ms os' -> flds_calls b64 c (m :: ms) (os ++ os')
with elt_calls (b64 : bytes -> bytes) : bool -> json -> list op -> Prop :=
| E_str c l v : plain v -> elt_calls b64 c (JStr v) [AStr l v c]
| E_bin c l v : elt_calls b64 c (JStr (b64 v)) [ABin l v c]
| E_uint c l v : elt_calls b64 c (JInt (Z.of_N v)) [AUint l v c]
| E_elm c l l' ms os : flds_calls b64 false ms os -> elt_calls b64 c (JObj ms) (ElmStart l c :: os ++ [ElmEnd l'])
with elts_calls (b64 : bytes -> bytes) : bool -> list json -> list op -> Prop :=
| Es_none c : elts_calls b64 c [] []
| Es_more c v vs os os' : elt_calls b64 c v os -> elts_calls b64 true vs os' -> elts_calls b64 c (v :: vs) (os ++ os').
Inductive doc_calls (b64 : bytes -> bytes) : json -> list op -> Prop :=
| Doc l l' ms os : flds_calls b64 false ms os -> doc_calls b64 (JObj ms) (DocStart l :: os ++ [DocEnd l'])
| DocElm l l' ms os : flds_calls b64 false ms os -> doc_calls b64 (JObj ms) (ElmStart l false :: os ++ [ElmEnd l']).
