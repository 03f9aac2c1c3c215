From Verif Require Import Base UtilStr_Model Base64_Model Fmt_Model Json_Spec Fmt_Spec Fmt_Proofs Fmt_Proofs2.
Local Open Scope nat_scope.

(* C38: a properly nested document whose names and strings need no escaping is JSON and reads as what was put into it; binary data
   reads as a text that decodes back.  Missing: names and strings that need escaping, boolean fields (refuted below) *)
Theorem json_document_partial : exists b64, (forall v, base64_text v (b64 v)) /\ forall v os, doc_calls b64 v os -> parse (emits JSON os) = Some v.
Proof. exact doc_lemma. Qed.
Print Assumptions json_document_partial.
Example json_document_case : forall b64,
  doc_calls b64 (JObj [(B "name", JStr (B "sda")); (B "list", JArr [JObj [(B "seq", JInt 7)]; JStr (b64 [ascii_of_nat 255; NUL]); JInt 0]); (B "inner", JObj []); (B "n", JInt (-5))])
    [DocStart 0; FldStr 1 (B "name") (B "sda") false; ArrStart 1 (B "list") true; ElmStart 2 false; FldUint64 3 (B "seq") 7 false; ElmEnd 2; ABin 2 [ascii_of_nat 255; NUL] true; AUint 2 0 true; ArrEnd 1;
     ElmName 1 (B "inner") true; ElmStart 1 false; ElmEnd 1; FldInt64 1 (B "n") (-5) true; DocEnd 0].
Proof.
  intros b64.
  assert (P : forall s, forallb plain_byte s = true -> plain s) by (intros s H c I; apply (proj1 (forallb_forall _ _) H); exact I).
  apply (Doc b64 0 0 _ ([FldStr 1 (B "name") (B "sda") false] ++ (ArrStart 1 (B "list") true :: ((ElmStart 2 false :: ([FldUint64 3 (B "seq") 7 false] ++ []) ++ [ElmEnd 2]) ++ [ABin 2 [ascii_of_nat 255; NUL] true] ++ [AUint 2 0 true] ++ []) ++ [ArrEnd 1])
    ++ (ElmName 1 (B "inner") true :: ElmStart 1 false :: [] ++ [ElmEnd 1]) ++ [FldInt64 1 (B "n") (-5) true] ++ [])).
  apply Fs_more; [apply F_str; apply P; reflexivity|]. apply Fs_more; [apply F_arr; [apply P; reflexivity|]|].
  - apply Es_more; [apply E_elm; apply Fs_more; [apply (F_uint64 b64 false 3 (B "seq") 7); apply P; reflexivity|apply Fs_none]|]. apply Es_more; [apply E_bin|]. apply Es_more; [apply (E_uint b64 true 2 0)|apply Es_none].
  - apply Fs_more; [apply F_elm; [apply P; reflexivity|apply Fs_none]|]. apply Fs_more; [apply F_int64; apply P; reflexivity|apply Fs_none].
Qed.
Example json_document_text : emits JSON [DocStart 0; FldStr 1 (B "name") (B "sda") false; FldUint 1 (B "n") 12 true; DocEnd 0]
  = B "{" ++ [LF] ++ B "    ""name"": ""sda"","%string ++ [LF] ++ B "    ""n"": 12"%string ++ [LF] ++ B "}" ++ [LF].
Proof. reflexivity. Qed.

(* C38 refuted: the document of one string field reads as what was put into it only if the string needs no escaping *)
Theorem json_string_refuted l l' l'' n v : plain n -> (parse (emits JSON [DocStart l; FldStr l' n v false; DocEnd l'']) = Some (JObj [(n, JStr v)]) <-> plain v).
Proof. exact (one_field_lemma l l' l'' n v). Qed.
Print Assumptions json_string_refuted.
Example json_string_refuted_case : parse (emits JSON [DocStart 0; FldStr 1 (B "a") (B "x""y"%string) false; DocEnd 0]) = None
  /\ parse (emits JSON [DocStart 0; FldStr 1 (B "a") (B "x"", ""b"": ""y"%string) false; DocEnd 0]) = Some (JObj [(B "a", JStr (B "x")); (B "b", JStr (B "y"))])
  /\ parse (emits JSON [DocStart 0; FldStr 1 (B "a") (B "x\y"%string) false; DocEnd 0]) = None.
Proof. vm_compute. repeat split. Qed.

(* C38 refuted: a document with a boolean field, whatever fields come before it and calls after it, is not JSON *)
Theorem json_bool_refuted : exists b64, (forall v, base64_text v (b64 v)) /\ forall l l' n v ms os os', flds_calls b64 false ms os ->
  parse (emits JSON (DocStart l :: os ++ FldBool l' n v (match ms with [] => false | _ => true end) :: os')) = None.
Proof. exact (ex_intro _ binary (conj binary_text (fun l l' n v ms os os' F => bool_lemma binary l l' n v ms os os' F eq_refl))). Qed.
Print Assumptions json_bool_refuted.
Example json_bool_refuted_case : emits JSON [DocStart 0; FldBool 1 (B "a") true false; DocEnd 0] = B "{" ++ [LF] ++ B "    {""a"": true}"%string ++ [LF] ++ B "}" ++ [LF].
Proof. reflexivity. Qed.
