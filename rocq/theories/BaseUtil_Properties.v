From Verif Require Import Base Tok_Spec UtilStr_Spec BaseUtil_Model BaseUtil_Spec BaseUtil_Proofs.
Local Open Scope nat_scope.

(* C37 *)
Theorem fd_read_all_exact : forall ev stream len r b rest, (len <= SSIZE_MAX)%N -> fd_read_all ev stream len = (r, b, rest) ->
  stream = b ++ rest /\ length b <= N.to_nat len
  /\ ((r = Z.of_nat (length b) /\ b = firstn (N.to_nat len) stream) \/ exists e, In (Failed e) ev /\ r = (- e)%Z).
Proof. exact fd_read_all_lemma. Qed.
Print Assumptions fd_read_all_exact.
Theorem fd_read_all_no_failure : forall ev stream len, (len <= SSIZE_MAX)%N -> (forall e, ~ In (Failed e) ev) ->
  let b := firstn (N.to_nat len) stream in
  fd_read_all ev stream len = (Z.of_nat (length b), b, skipn (N.to_nat len) stream).
Proof. exact fd_read_all_ok_lemma. Qed.
Print Assumptions fd_read_all_no_failure.
Example fd_read_all_case :
  fd_read_all [Delivers 0; Interrupted; Delivers 1; Interrupted] (B "abcdef") 5 = (5%Z, B "abcde", B "f")
  /\ fd_read_all [Delivers 0; Failed 5] (B "abcdef") 5 = ((-5)%Z, B "a", B "bcdef")
  /\ fd_read_all [Delivers 1; Delivers 1] (B "abc") 5 = (3%Z, B "abc", []).
Proof. vm_compute. auto. Qed.

(* C74 *)
Theorem env_number_refuted :
  env_get_ull (Some (B "")) 0 100 = (0%Z, Some 0%N)
  /\ env_get_ull (Some (B "-1")) 0 ULLONG_MAX = (0%Z, Some ULLONG_MAX)
  /\ env_get_ull (Some (B "7")) 5 5 = (0%Z, Some 7%N).
Proof. vm_compute. auto. Qed.
Print Assumptions env_number_refuted.

Theorem env_number_partial : forall s min max v, env_get_ull (Some s) min max = (0%Z, Some v) <->
  taken_for s v /\ (min = max \/ (min <= v <= max)%N).
Proof. exact env_lemma. Qed.
Print Assumptions env_number_partial.
Example env_number_case : env_get_ull (Some (B " +0042")) 1 100 = (0%Z, Some 42%N) /\ env_get_ull (Some (B "101")) 1 100 = ((- ERANGE)%Z, None)
  /\ env_get_ull (Some (B "18446744073709551616")) 0 0 = ((- EINVAL)%Z, None) /\ env_get_ull (Some (B "7x")) 1 100 = ((- EINVAL)%Z, None)
  /\ env_get_ull None 0 0 = ((- ENOKEY)%Z, None).
Proof. vm_compute. auto. Qed.

(* C75 *)
Definition line := B "root=/dev/sda  quiet rootwait=1 a=b=c".
Theorem kernel_arg_refuted :
  (exists w, cmdline_words line [w; B "quiet"; B "rootwait=1"; B "a=b=c"] /\ kernel_get_arg line (inl 0%Z) (Some w) false = (false, None, 0%Z, line))
  /\ kernel_get_arg line (inl 0%Z) (Some (B "a")) true = (true, Some (B "=b=c"), 0%Z, line).
Proof. split; [exists (B "root=/dev/sda"); split; vm_compute; reflexivity|vm_compute; reflexivity]. Qed.
Print Assumptions kernel_arg_refuted.

Theorem kernel_arg_present_partial : forall line cm arg ws, line <> [] -> ~ In "="%char arg -> cmdline_words line ws ->
  exists b, kernel_get_arg line cm (Some arg) false = (b, None, 0%Z, line) /\ (b = true <-> exists w, In w ws /\ is_arg arg w).
Proof. exact kernel_present_lemma. Qed.
Print Assumptions kernel_arg_present_partial.
Theorem kernel_arg_value_partial : forall line cm arg ws, line <> [] -> ~ In "="%char arg -> cmdline_words line ws ->
  (forall v, first_arg arg ws (arg ++ B "=" ++ v) -> kernel_get_arg line cm (Some arg) true = (true, Some (B "=" ++ v), 0%Z, line))
  /\ (first_arg arg ws arg -> kernel_get_arg line cm (Some arg) true = (false, None, (- EINVAL)%Z, line))
  /\ ((forall w, In w ws -> ~ is_arg arg w) -> kernel_get_arg line cm (Some arg) true = (false, None, 0%Z, line)).
Proof. exact kernel_value_lemma. Qed.
Print Assumptions kernel_arg_value_partial.
Theorem kernel_arg_reads : forall ev file arg want, file <> [] -> ~ In NUL file -> (forall e, ~ In (Failed e) ev) ->
  kernel_get_arg [] (inr (ev, file)) (Some arg) want = kernel_get_arg (firstn 4096 file) (inr (ev, file)) (Some arg) want.
Proof. exact kernel_reads_lemma. Qed.
Print Assumptions kernel_arg_reads.
Example kernel_arg_case : cmdline_words line [B "root=/dev/sda"; B "quiet"; B "rootwait=1"; B "a=b=c"]
  /\ kernel_get_arg [] (inr ([Delivers 3; Interrupted; Delivers 6], line)) (Some (B "rootwait")) true = (true, Some (B "=1"), 0%Z, line)
  /\ kernel_get_arg line (inl 2%Z) (Some (B "quiet")) false = (true, None, 0%Z, line)
  /\ kernel_get_arg line (inl 2%Z) (Some (B "qui")) false = (false, None, 0%Z, line)
  /\ kernel_get_arg [] (inl 2%Z) (Some (B "quiet")) false = (false, None, (-2)%Z, []).
Proof. vm_compute. auto. Qed.

(* C79 *)
Theorem sysfs_first_line : forall file line b, file <> [] -> ~ In NUL file -> ~ In "010"%char line ->
  (file = line \/ exists rest, file = line ++ ["010"%char] ++ rest) -> 2 <= length b ->
  exists b', sysfs_get (inr file) b = Ok (0%Z, b', Some (length (firstn (length b - 1) line) + 1))
    /\ length b' = length b /\ text b' (firstn (length b - 1) line).
Proof. exact sysfs_lemma. Qed.
Print Assumptions sysfs_first_line.
Theorem sysfs_empty : forall b, 2 <= length b -> sysfs_get (inr []) b = Ok ((- EIO)%Z, b, None).
Proof. exact sysfs_empty_lemma. Qed.
Print Assumptions sysfs_empty.
Example sysfs_case : sysfs_get (inr (B "dm-0" ++ ["010"%char] ++ B "x")) (repeat "z"%char 8) = Ok (0%Z, B "dm-0" ++ [NUL; NUL] ++ B "zz", Some 5)
  /\ sysfs_get (inr (B "dm-0")) (repeat "z"%char 4) = Ok (0%Z, B "dm-" ++ [NUL], Some 4).
Proof. vm_compute. auto. Qed.
