From Verif Require Import Base Tok_Model Tok_Spec Tok_Proofs.
Local Open Scope nat_scope.

(* C31 *)
Definition sp := Some (B " ").
Definition qs := Some [ascii_of_nat 34; ascii_of_nat 39].
Definition cmd : bytes := B "run " ++ [ascii_of_nat 34] ++ B "a b" ++ [ascii_of_nat 34] ++ B "c '' x".
Definition cmd_words := [B "run"; B "a bc"; B ""; B "x"].

Theorem strv_words : forall mem prefix str suffix delims quotes w1 w2 w3,
  words_of delims quotes prefix = Some w1 -> words_of delims quotes str = Some w2 -> words_of delims quotes suffix = Some w3 ->
  let ws := w1 ++ w2 ++ w3 in
  (forall m, mem = Some m -> needs ws <= length m) ->
  exists sl area, comb_to_strv mem prefix str suffix delims quotes = Ok (Some (sl, area))
    /\ length sl = S (length ws)
    /\ area = stored ws ++ skipn (needs ws) (or_empty mem)
    /\ (no_nul prefix -> no_nul str -> no_nul suffix -> read_strv sl area = Ok ws).
Proof. exact strv_words_lemma. Qed.
Print Assumptions strv_words.
Example strv_words_split : words_of sp qs (Some cmd) = Some cmd_words /\ words_of sp qs (Some (B "env -i")) = Some [B "env"; B "-i"]
  /\ words_of sp qs None = Some [].
Proof. vm_compute. auto. Qed.
Example strv_words_case : exists sl area, comb_to_strv None (Some (B "env -i")) (Some cmd) None sp qs = Ok (Some (sl, area))
  /\ read_strv sl area = Ok ([B "env"; B "-i"] ++ cmd_words) /\ length area = 19.
Proof. eexists _, _. split; [vm_compute; reflexivity|]. vm_compute. auto. Qed.

Theorem strv_refused : forall mem prefix str suffix delims quotes,
  comb_to_strv mem prefix str suffix delims quotes = Ok None <->
  words_of delims quotes prefix = None \/ words_of delims quotes str = None \/ words_of delims quotes suffix = None
  \/ exists m w1 w2 w3, mem = Some m /\ words_of delims quotes prefix = Some w1 /\ words_of delims quotes str = Some w2
     /\ words_of delims quotes suffix = Some w3 /\ length m < needs (w1 ++ w2 ++ w3).
Proof. exact strv_refused_lemma. Qed.
Print Assumptions strv_refused.
Example strv_refused_case : comb_to_strv None None (Some (B "a 'b")) None sp qs = Ok None
  /\ comb_to_strv (Some (repeat NUL 28)) None (Some (B "a bc")) None sp qs = Ok None
  /\ comb_to_strv (Some (repeat NUL 29)) None (Some (B "a bc")) None sp qs <> Ok None.
Proof. vm_compute. repeat split; congruence. Qed.

(* C76 *)
Theorem strv_copy_unterminated_refuted : exists l sl area,
  strv_copy None l = Ok (Some (sl, area)) /\ read_strv sl area = UB.
Proof. exists [B "a"; B "b"]. eexists _, _. split; vm_compute; reflexivity. Qed.
Print Assumptions strv_copy_unterminated_refuted.

Theorem strv_copy_partial : forall mem l, (forall m, mem = Some m -> needs l <= length m) ->
  exists sl, strv_copy mem l = Ok (Some (sl ++ [Uninit], stored l ++ skipn (needs l) (or_empty mem)))
    /\ length sl = length l
    /\ ((forall w, In w l -> ~ In NUL w) -> read_strv (sl ++ [Null]) (stored l ++ skipn (needs l) (or_empty mem)) = Ok l).
Proof. exact strv_copy_lemma. Qed.
Print Assumptions strv_copy_partial.
Example strv_copy_case : exists sl area, strv_copy (Some (repeat NUL 40)) [B "ab"; B "c"] = Ok (Some (sl, area))
  /\ read_strv (firstn 2 sl ++ [Null]) area = Ok [B "ab"; B "c"] /\ length area = 16.
Proof. eexists _, _. split; [vm_compute; reflexivity|]. vm_compute. auto. Qed.
