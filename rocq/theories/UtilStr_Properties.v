From Verif Require Import Base Tok_Model Tok_Spec UtilStr_Model UtilStr_Spec UtilStr_Proofs UtilStr_Proofs2.
Local Open Scope nat_scope.

(* C31: a prefix or suffix without delimiters and quotes is one word *)
Theorem strv_plain_word : forall d q w, w <> [] -> (forall c, In c w -> ~ In c d /\ ~ In c q) ->
  words_of (Some d) (Some q) (Some w) = Some [w].
Proof. exact plain_word_lemma. Qed.
Print Assumptions strv_plain_word.
Example strv_plain_word_case : words_of (Some (B " ")) (Some (B "'")) (Some (B "/usr/bin/x")) = Some [B "/usr/bin/x"].
Proof. reflexivity. Qed.

(* C32 *)
Theorem rstr_last_refuted : exists h n, occurs h n 0 /\ rstr h n = None.
Proof. exists (B "abc"), (B "ab"). split; [exists [], (B "c"); split; reflexivity|reflexivity]. Qed.
Print Assumptions rstr_last_refuted.

Theorem rstr_last_partial : forall h n,
  (forall i, rstr h n = Some i <-> 0 < i /\ occurs h n i /\ forall j, occurs h n j -> j <= i)
  /\ (rstr h n = None <-> forall j, occurs h n j -> j = 0).
Proof. exact rstr_lemma. Qed.
Print Assumptions rstr_last_partial.
Example rstr_last_case : rstr (B "abcabc") (B "ab") = Some 3 /\ rstr (B "xab") (B "ab") = Some 1 /\ rstr (B "xab") (B "c") = None.
Proof. repeat split. Qed.

(* C33 *)
Theorem kv_reads_outside_refuted : exists s, ~ In NUL s /\ get_kv (s ++ [NUL]) = UB.
Proof. exists (B "KEY= "). split; [cbn; intuition discriminate|reflexivity]. Qed.
Print Assumptions kv_reads_outside_refuted.

Theorem kv_split_partial : forall s k v, ~ In NUL s -> pair_text s k v ->
  exists b ko vo, get_kv (s ++ [NUL]) = Ok (0%Z, b, Some (ko, vo)) /\ length b = length s + 1
    /\ text (skipn ko b) k /\ text (skipn vo b) v.
Proof. exact kv_pair. Qed.
Print Assumptions kv_split_partial.
Example kv_split_case : pair_text (B "  ID = 'a b'  ") (B "ID") (B "a b") /\ pair_text (B "N=7") (B "N") (B "7").
Proof.
  assert (K : forall k, existsb (Ascii.eqb NUL) k = false -> negb (length k =? 0) && forallb wordc k = true -> key_word k).
  { intros k H H2. apply andb_true_iff in H2 as [H1 H2]. apply key_word_b; [apply inset_not in H; exact H|].
    split; [intros ->; discriminate H1|exact H2]. }
  split.
  - exists (B "  "), (B " "), (B " "), (B "  "). rewrite !spaces_b. do 4 (split; [reflexivity|]). split; [apply K; reflexivity|].
    right. exists "'"%char. split; [right; reflexivity|]. split; [apply inset_not; reflexivity|reflexivity].
  - exists [], [], [], []. rewrite !spaces_b. do 4 (split; [reflexivity|]). split; [apply K; reflexivity|].
    left. split; [|reflexivity]. apply plain_value_b; [apply inset_not; reflexivity|]. split; [discriminate|reflexivity].
Qed.
Example kv_split_computed : get_kv (B "ID = 'a b' " ++ [NUL]) =
  Ok (0%Z, B "ID" ++ [NUL] ++ B "= 'a b" ++ [NUL] ++ B " " ++ [NUL], Some (0, 6)).
Proof. reflexivity. Qed.

Theorem kv_codes_partial : forall s, ~ In NUL s ->
  (spaces s -> get_kv (s ++ [NUL]) = Ok ((- ENODATA)%Z, s ++ [NUL], None))
  /\ (valueless s -> get_kv (s ++ [NUL]) = UB)
  /\ (~ spaces s -> ~ valueless s -> (forall k v, ~ pair_text s k v) ->
      exists b, get_kv (s ++ [NUL]) = Ok ((- EINVAL)%Z, b, None) /\ length b = length s + 1).
Proof. exact kv_codes_lemma. Qed.
Print Assumptions kv_codes_partial.
Example kv_codes_case : get_kv (B " = x" ++ [NUL]) = Ok ((- EINVAL)%Z, B " = x" ++ [NUL], None)
  /\ get_kv (B "a b=c" ++ [NUL]) = Ok ((- EINVAL)%Z, B "a b=c" ++ [NUL], None)
  /\ (exists b, get_kv (B "a='b" ++ [NUL]) = Ok ((- EINVAL)%Z, b, None)).
Proof. repeat split. eexists. reflexivity. Qed.

(* C34 *)
Theorem copy_len_exact : forall m len s, text_upto m (N.to_nat len) s ->
  (forall buf, (INT_MAX < len)%N -> copy_len m len buf = Ok None)
  /\ ((len <= INT_MAX)%N -> copy_len m len None = Ok (Some (s ++ [NUL]))
      /\ (forall b, (N.of_nat (length b) <= len)%N -> copy_len m len (Some b) = Ok None)
      /\ forall b, (len < N.of_nat (length b))%N -> copy_len m len (Some b) = Ok (Some (s ++ [NUL] ++ skipn (length s + 1) b))).
Proof. exact copy_len_lemma. Qed.
Print Assumptions copy_len_exact.
Example copy_len_case : text_upto (B "hello") 3 (B "hel") /\ copy_len (B "hello") 3 (Some (repeat "x"%char 4)) = Ok (Some (B "hel" ++ [NUL]))
  /\ copy_len (B "hello") 3 (Some (repeat "x"%char 3)) = Ok None
  /\ copy_len (B "hi" ++ [NUL]) 3 (Some (repeat "x"%char 5)) = Ok (Some (B "hi" ++ [NUL] ++ B "xx")).
Proof.
  split; [split; [cbn; intuition discriminate|right; split; [reflexivity|exists (B "lo"); reflexivity]]|]. repeat split.
Qed.

Theorem copy_substr_wraps_refuted : exists str mem offset len, (offset < 2 ^ 64 /\ len < 2 ^ 64)%N /\ copy_substr mem str offset len = UB.
Proof. exists (B "abc"), (Some (repeat NUL 8)), 18446744073709551615%N, 1%N. split; [split; reflexivity|vm_compute; reflexivity]. Qed.
Print Assumptions copy_substr_wraps_refuted.

Theorem copy_substr_partial : forall str offset len, (offset + len < 2 ^ 64)%N -> (N.of_nat (length str) < 2 ^ 64 - 1)%N ->
  let sub := firstn (N.to_nat len) (skipn (N.to_nat offset) str) in
  (forall mem, (N.of_nat (length str) < offset + len)%N -> copy_substr mem str offset len = Ok None)
  /\ ((offset + len <= N.of_nat (length str))%N -> copy_substr None str offset len = Ok (Some (sub ++ [NUL]))
      /\ (forall b, (N.of_nat (length b) < len + 1)%N -> copy_substr (Some b) str offset len = Ok None)
      /\ forall b, (len + 1 <= N.of_nat (length b))%N -> copy_substr (Some b) str offset len = Ok (Some (sub ++ [NUL] ++ skipn (N.to_nat len + 1) b))).
Proof. exact copy_substr_lemma. Qed.
Print Assumptions copy_substr_partial.
Example copy_substr_case : copy_substr None (B "abcdef") 2 3 = Ok (Some (B "cde" ++ [NUL]))
  /\ copy_substr None (B "abcdef") 4 3 = Ok None /\ copy_substr (Some (B "xyz")) (B "abcdef") 0 2 = Ok (Some (B "ab" ++ [NUL])).
Proof. vm_compute. auto. Qed.

(* C35 *)
Theorem combstr_contains_refuted :
  (exists h p n s i, combstr h (Some p) (Some n) (Some s) false = Some i /\ forall j, ~ occurs h (p ++ n ++ s) j)
  /\ (exists h p n s, occurs h (p ++ n ++ s) 1 /\ combstr h (Some p) (Some n) (Some s) false = None).
Proof.
  split.
  - exists (B "a-x-b"), (B "a"), (B "x"), (B "b"), 2. split; [reflexivity|]. intros j H. apply occurs_exact in H.
    exact (find_str_spec false (B "a" ++ B "x" ++ B "b") (B "a-x-b") j H).
  - exists (B "-axb"), (B "a"), (B "x"), (B "b"). split; [exists (B "-"), []; split; reflexivity|reflexivity].
Qed.
Print Assumptions combstr_contains_refuted.

Theorem combstr_partial : forall h p n s ic i, combstr h p n s ic = Some i <->
  length (or_empty p) + length (or_empty n) + length (or_empty s) <= length h
  /\ occurs_as ic h (or_empty p) 0 /\ occurs_as ic h (or_empty s) (length h - length (or_empty s))
  /\ match n with None => i = 0
     | Some n => length (or_empty p) <= i /\ occurs_as ic h n i /\ forall j, length (or_empty p) <= j < i -> ~ occurs_as ic h n j end.
Proof. exact combstr_lemma. Qed.
Print Assumptions combstr_partial.
Example combstr_case : combstr (B "dev_Sda_end") (Some (B "DEV")) (Some (B "sda")) (Some (B "end")) true = Some 4
  /\ combstr (B "dev_Sda_end") (Some (B "DEV")) (Some (B "sda")) (Some (B "end")) false = None
  /\ combstr (B "aba") (Some (B "ab")) None (Some (B "ba")) false = None.
Proof. vm_compute. auto. Qed.

Theorem combstr_concatenation : forall p n s ic, exists i, combstr (p ++ n ++ s) (Some p) (Some n) (Some s) ic = Some i.
Proof. exact combstr_concat_lemma. Qed.
Print Assumptions combstr_concatenation.
Example combstr_concatenation_case : combstr (B "a" ++ B "x" ++ B "b") (Some (B "a")) (Some (B "x")) (Some (B "b")) false = Some 1.
Proof. reflexivity. Qed.

(* C36 *)
Theorem udev_action_round_trip : forall a, a <= 8 -> exists s, action_to_str a = Ok s /\ str_to_action s = a.
Proof. exact action_round_lemma. Qed.
Print Assumptions udev_action_round_trip.
Theorem udev_devtype_round_trip : forall a, a <= 2 -> exists s, devtype_to_str a = Ok s /\ str_to_devtype s = a.
Proof. exact devtype_round_lemma. Qed.
Print Assumptions udev_devtype_round_trip.
Theorem udev_action_unknown : forall s, str_to_action s = UDEV_ACTION_UNKNOWN <->
  forall n, In n [B "add"; B "change"; B "remove"; B "move"; B "online"; B "offline"; B "bind"; B "unbind"] -> ~ same true s n.
Proof. exact udev_action_unknown_thm. Qed.
Print Assumptions udev_action_unknown.
Theorem udev_devtype_unknown : forall s, str_to_devtype s = UDEV_DEVTYPE_UNKNOWN <->
  forall n, In n [B "disk"; B "partition"] -> ~ same true s n.
Proof. exact udev_devtype_unknown_thm. Qed.
Print Assumptions udev_devtype_unknown.
Example udev_names_case : str_to_action (B "Change") = UDEV_ACTION_CHANGE /\ str_to_action (B "changed") = UDEV_ACTION_UNKNOWN
  /\ str_to_devtype (B "partition") = UDEV_DEVTYPE_PARTITION /\ str_to_devtype (B "") = UDEV_DEVTYPE_UNKNOWN.
Proof. repeat split. Qed.

(* C77 *)
Theorem comb_to_str_exact : forall p s x mem, let t := or_empty p ++ or_empty s ++ or_empty x in
  comb_to_str mem p s x = match mem with
    | None => Ok (Some (t ++ [NUL]))
    | Some b => if length b <=? length t then Ok None else Ok (Some (t ++ [NUL] ++ skipn (length t + 1) b)) end.
Proof. exact comb_to_str_lemma. Qed.
Print Assumptions comb_to_str_exact.
Example comb_to_str_case : comb_to_str (Some (B "123456")) (Some (B "a")) None (Some (B "bc")) = Ok (Some (B "abc" ++ [NUL] ++ B "56"))
  /\ comb_to_str (Some (B "123")) (Some (B "a")) None (Some (B "bc")) = Ok None.
Proof. vm_compute. auto. Qed.

(* C78 *)
Theorem pid_text : forall pid b, exists t, decimal pid t
  /\ (length t < length b -> pid_to_str pid b = Ok (0%Z, t ++ [NUL] ++ skipn (length t + 1) b))
  /\ (length b <= length t -> exists b', pid_to_str pid b = Ok ((-1)%Z, b') /\ length b' = length b /\ (b <> [] -> exists u, text b' u)).
Proof. exact pid_to_str_lemma. Qed.
Print Assumptions pid_text.
Example pid_text_case : pid_to_str 4096 (repeat "x"%char 6) = Ok (0%Z, B "4096" ++ [NUL] ++ B "x")
  /\ pid_to_str (-1) (repeat "x"%char 2) = Ok ((-1)%Z, B "-" ++ [NUL]).
Proof. vm_compute. auto. Qed.
