From Verif Require Import Base UtilStr_Model UbrRec_Model Log_Model Log_Spec Log_Proofs.
Local Open Scope nat_scope.

(* C126: the journal gets each message that the verbosity in force lets through, whole with all its prefixes when it fits into a line, else as much of it as fits and a note. *)
Theorem journal_lines : forall t msg q, length msg = LINE -> plain_req q -> (q_level q <= t_max t)%Z ->
  let code := Some (q_file q, q_line q, q_func q) in
  exists o, jrn_output t msg q = Ok o
   /\ line_cases (q_pfx q) (q_text q) (fun s => OJournal s (Some (hd [] (q_pfx q))) (q_level q) (if t_src t then code else None))
        (OJournal (B "(log prefix too long)") None (q_level q) code) (OJournal (B "(log message truncated)") None (q_level q) code) o.
Proof. exact jrn_lemma. Qed.
Print Assumptions journal_lines.

(* C126: syslog gets each message with no or one prefix like this. *)
Theorem syslog_lines_partial : forall t msg q, length msg = LINE -> plain_req q -> (q_level q <= t_max t)%Z -> length (q_pfx q) <= 1 ->
  exists o, sys_output t msg q = Ok o
   /\ line_cases (q_pfx q) (q_text q) (OSyslog (q_level q)) (OSyslog (q_level q) SYS_LONG) (OSyslog (q_level q) SYS_TRUNC) o.
Proof. exact sys_lemma. Qed.
Print Assumptions syslog_lines_partial.

(* C126: of a message with two or more prefixes syslog gets the last prefix only, whatever the text and the other prefixes are. *)
Theorem syslog_text_refuted : forall t msg q, length msg = LINE -> (forall p, In p (q_pfx q) -> plain p) -> (q_level q <= t_max t)%Z -> 2 <= length (q_pfx q) ->
  length (chain (q_pfx q)) + length (q_text q) < LINE -> q_text q <> [] ->
  sys_output t msg q = Ok [OSyslog (q_level q) (pfx_text (last (q_pfx q) []))].
Proof. exact sys_lost. Qed.
Print Assumptions syslog_text_refuted.

(* C126: the same for the log of the process after all histories of the interface. *)
Theorem syslog_process_refuted : forall l g o0 n q, lsteps log0 l = Ok (g, o0) -> fst (in_force l) = TSyslog -> (q_level q <= threshold (snd (in_force l)))%Z -> stack_ok n ->
  (forall p, In p (named l ++ q_pfx q) -> plain p) -> 2 <= length (named l ++ q_pfx q) -> length (chain (named l ++ q_pfx q)) + length (q_text q) < LINE -> q_text q <> [] ->
  lsteps g [LOutput n true q] = Ok (g, [OSyslog (q_level q) (pfx_text (last (named l ++ q_pfx q) []))]).
Proof. exact sys_history. Qed.
Print Assumptions syslog_process_refuted.

(* C126: on the standard streams each message that is let through is one line with the prefix of the handle, the prefixes, the text and the error; warnings and worse go to stderr;
   nothing else is in it for verbosities up to 2; for greater ones the place in the source and the process ids come first. *)
Theorem standard_lines : forall l g o0 n q, lsteps log0 l = Ok (g, o0) -> fst (in_force l) = TStandard -> (q_level q <= threshold (snd (in_force l)))%Z \/ q_level q = 128%Z ->
  exists err pre, lsteps g [LOutput n true q] = Ok (g, [OFile err (pre ++ chain (named l ++ q_pfx q) ++ q_text q ++ errno_part (n_err n) (q_errno q) ++ ["010"%char])])
   /\ ((q_level q <= 4)%Z -> err = true)
   /\ (Forall quiet l -> pre = [] /\ (err = true -> q_level q <= 4)%Z)
   /\ (~ (0 <= snd (in_force l) <= 2)%Z -> err = true /\ exists ids,
        pre = ids ++ q_file q ++ B ":" ++ print_d (q_line q) ++ match q_func q with Some f => B ":" ++ f | None => [] end ++ ["009"%char]
        /\ (snd (in_force l) <> 3%Z -> ids = B "[" ++ print_d (fst (n_ids n)) ++ B ":" ++ print_d (snd (n_ids n)) ++ B "]:")).
Proof. exact std_lemma. Qed.
Print Assumptions standard_lines.

(* C126: error numbers reach neither syslog nor the journal: what comes out is the same for all of them. *)
Theorem errno_refuted : forall l g o0 n h q e, lsteps log0 l = Ok (g, o0) -> fst (in_force l) <> TStandard ->
  lsteps g [LOutput n h (Req (q_pfx q) (q_level q) e (q_file q) (q_line q) (q_func q) (q_text q))] = lsteps g [LOutput n h q].
Proof. exact errno_lost. Qed.
Print Assumptions errno_refuted.

(* C127: after every history no call goes beyond a buffer, and a message comes out exactly when a target is in force and its level is at most the one of the verbosity in force
   (or it is a print on the standard streams). *)
Theorem log_levels : forall l n q, Forall call_ok l -> stack_ok n -> plain_req q ->
  exists g o0 o, lsteps log0 l = Ok (g, o0) /\ lsteps log0 (l ++ [LOutput n true q]) = Ok (g, o0 ++ o)
   /\ (o <> [] -> fst (in_force l) <> TNone /\ ((q_level q <= threshold (snd (in_force l)))%Z \/ (fst (in_force l) = TStandard /\ q_level q = 128%Z)))
   /\ (fst (in_force l) <> TNone -> (q_level q <= threshold (snd (in_force l)))%Z \/ (fst (in_force l) = TStandard /\ q_level q = 128%Z) -> q_text q <> [] -> o <> []).
Proof. exact levels_lemma. Qed.
Print Assumptions log_levels.

(* C127: where a handle is asked for, the first message without one gives a note that does not depend on its text, level, prefixes and error. *)
Theorem no_handle_note : forall l g o0 n q, Forall call_ok l -> handle_needed l = true -> (forall n' q', ~ In (LOutput n' false q') l) -> fst (in_force l) <> TNone -> stack_ok n -> lsteps log0 l = Ok (g, o0) ->
  exists g' o, o <> [] /\ forall q', q_file q' = q_file q -> q_line q' = q_line q -> q_func q' = q_func q -> lsteps g [LOutput n false q'] = Ok (g', o).
Proof. exact first_note. Qed.
Print Assumptions no_handle_note.

(* C127: all later ones give nothing. *)
Theorem no_handle_once : forall l1 n q l2 n' q' g o, handle_needed l1 = true -> handle_needed (l1 ++ LOutput n false q :: l2) = true ->
  lsteps log0 (l1 ++ LOutput n false q :: l2) = Ok (g, o) -> lsteps log0 (l1 ++ LOutput n false q :: l2 ++ [LOutput n' false q']) = Ok (g, o).
Proof. exact no_handle_lemma. Qed.
Print Assumptions no_handle_once.

(* C127: closing the log and initialising it again changes nothing: target and verbosity stay those of the first initialisation. *)
Theorem log_reinit_refuted : forall t v t' v' l, t <> TNone -> lsteps log0 (LInit t v :: LClose :: LInit t' v' :: l) = lsteps log0 (LInit t v :: l).
Proof. exact reinit_lemma. Qed.
Print Assumptions log_reinit_refuted.

(* Concrete cases *)
Definition l_env : env := Env (1, 42)%Z (fun e => B "E" ++ print_d e) (repeat "x"%char LINE).
Definition l_req (p : list bytes) (level e : Z) (text : bytes) : req := Req p level e (B "ubr.c") 100%Z (Some (B "_f")) text.
(* A message of a resource in the daemon with syslog: the text is not in what syslog gets *)
Example syslog_ex : lsteps log0 [LInitHandle TSyslog 0; LOutput l_env true (l_req (res_prefixes (B "ubridge/main") None []) 3 5 (B "Failed to open store."))]
  = Ok (log_init_with_handle log0 TSyslog 0, [OSyslog 3 (B "<ubridge/main> ")]).
Proof. vm_compute. reflexivity. Qed.
Example syslog_one_ex : sys_output (Tgt 5 false false false) (n_msg l_env) (l_req [B "util"] 3 0 (B "Out of memory.")) = Ok [OSyslog 3 (B "<util> Out of memory.")].
Proof. vm_compute. reflexivity. Qed.
Example journal_ex : exists g, lsteps log0 [LInitHandle TJournal 1; LOutput l_env true (l_req (res_prefixes (B "ubridge/main") None []) 6 5 (B "Failed."));
    LOutput l_env true (l_req [] 7 0 (B "not seen"))]
  = Ok (g, [OJournal (B "<res-imp> <ubridge/main> Failed.") (Some (B "res-imp")) 6 (Some (B "ubr.c", 100%Z, Some (B "_f")))]).
Proof. eexists. vm_compute. reflexivity. Qed.
Example journal_cut_ex : jrn_output (Tgt 5 false false false) (n_msg l_env) (l_req [B "a"] 3 0 (repeat "y"%char LINE))
  = Ok [OJournal (B "(log message truncated)") None 3 (Some (B "ubr.c", 100%Z, Some (B "_f"))); OJournal (B "<a> " ++ repeat "y"%char 2043) (Some (B "a")) 3 None].
Proof. vm_compute. reflexivity. Qed.
Example standard_ex : exists g, lsteps log0 [LInit TStandard 0; LOutput l_env true (l_req [B "c"] 3 (-2) (B "Failed")); LOutput l_env true (l_req [] 128 0 (B "printed"))]
  = Ok (g, [OFile true (B "<c> Failed: E2." ++ ["010"%char]); OFile false (B "printed" ++ ["010"%char])]).
Proof. eexists. vm_compute. reflexivity. Qed.
Example standard_loud_ex : exists g, lsteps log0 [LInit TStandard 4; LPrefix (Some (B "c")); LOutput l_env true (l_req [] 7 0 (B "x"))]
  = Ok (g, [OFile true (B "[1:42]:ubr.c:100:_f" ++ ["009"%char] ++ B "<c> x" ++ ["010"%char])]).
Proof. eexists. vm_compute. reflexivity. Qed.
Example levels_ex : Forall call_ok [LInitHandle TJournal 1; LPrefix (Some (B "c")); LOutput l_env true (l_req [] 3 0 (B "x")); LChange TSyslog] /\ in_force [LInitHandle TJournal 1; LPrefix (Some (B "c")); LChange TSyslog] = (TSyslog, 1%Z).
Proof.
  split; [|reflexivity]. repeat constructor; cbn; try (intros ? []); unfold plain; cbn; intuition discriminate.
Qed.
Example no_handle_ex : handle_needed [LInitHandle TStandard 0] = true /\ exists g, lsteps log0 [LInitHandle TStandard 0; LOutput l_env false (l_req [B "a"] 7 1 (B "x")); LOutput l_env false (l_req [] 3 0 (B "y"))]
  = Ok (g, [OFile true (B "Internal error: Incorrect or missing log handle, skipping log messages." ++ ["010"%char])]).
Proof. split; [reflexivity|]. eexists. vm_compute. reflexivity. Qed.
