(* C17-C23: buffers. *)
From Verif Require Import Base Buf_Model Buf_Spec Buf_Proofs Buf_IO Buf_Vec.
Local Open Scope N_scope.

Definition ex_init : bufinit := {| isize := 4; istep := 8; ilimit := 32 |}.
Definition ex_nolim : bufinit := {| isize := 0; istep := 1; ilimit := 0 |}.
Definition ex_grow : bufinit := {| isize := 0; istep := 64; ilimit := 0 |}.
Lemma ex_init_ok : init_ok ex_init.
Proof. vm_compute. repeat split; discriminate. Qed.
Lemma ex_nolim_ok : init_ok ex_nolim.
Proof. vm_compute. repeat split; discriminate. Qed.
Lemma ex_grow_ok : init_ok ex_grow.
Proof. vm_compute. repeat split; discriminate. Qed.
Definition made (r : outcome (lbuf + Z)) : lbuf :=
  match r with Ok (inl b) => b | _ => {| bmode := PLAIN; binit := ex_nolim; bmem := []; bused := 0; bmark := None |} end.
Definition ran (r : outcome (lbuf * list bufres)) : lbuf := match r with Ok (b, _) => b | UB => made UB end.
Definition rets (r : outcome (lbuf * list bufres)) : list Z := match r with Ok (_, rs) => map ret rs | UB => [] end.

(* C17: both modes, every history of adds, formatted adds, releases, resets and reads. *)
Theorem buf_linear_content : forall ao m i b ops,
  init_ok i -> linear_create ao m i = Ok (inl b) -> Forall (op_ok m) ops ->
  exists b' rs c, buf_run b ops = Ok (b', rs) /\ buf_specs m [] ops rs c /\
    linear_count b' = len c /\ bused b' = (if (bused b' =? 0) then 0 else pfx m + len c) /\
    exists b'', buf_step b' (OGet 0) =
      Ok (b'', {| ret := 0; rmem := Some (pfx m); rpos := 0; rdata := Some (map Some c) |}).
Proof. exact linear_content_lemma. Qed.
Print Assumptions buf_linear_content.

Definition ex_ops : list bufop :=
  [OAdd true (DBytes (B "hello")) false; OFmt true (B "wor") true; ORelease 4 REL false; ORelease 7 ABS true;
   OAdd true (DBytes (B "ld")) false; OAdd false (DZero 60) false; OAdd true (DZero 60) false].

Example buf_linear_content_ex :
  init_ok ex_init /\ (exists b, linear_create true PREFIX ex_init = Ok (inl b)) /\ Forall (op_ok PREFIX) ex_ops /\
  rets (buf_run (made (linear_create true PREFIX ex_init)) ex_ops) = [0; 0; 0; 0; 0; - EOVERFLOW; - EOVERFLOW]%Z /\
  linear_count (ran (buf_run (made (linear_create true PREFIX ex_init)) ex_ops)) = 9.
Proof.
  split; [exact ex_init_ok|]. split; [eexists; reflexivity|]. split; [|split; reflexivity].
  repeat constructor; vm_compute; discriminate.
Qed.

(* C17 without the condition on pointers: a release pointer into the size prefix leaves a count that wraps. *)
Theorem buf_prefix_pointer_refuted : exists b ops b' rs,
  linear_create true PREFIX ex_init = Ok (inl b) /\
  ops = [OAdd true (DBytes (B "x")) false; OMemRelease (Some 2%Z) true] /\
  buf_run b ops = Ok (b', rs) /\ map ret rs = [0%Z; 0%Z] /\ linear_count b' = 2 ^ 64 - 2.
Proof. eexists _, _, _, _. split; [vm_compute; reflexivity|]. split; [vm_compute; reflexivity|]. split; [vm_compute; reflexivity|]. split; vm_compute; reflexivity. Qed.
Print Assumptions buf_prefix_pointer_refuted.

(* C18: bounds after every history; the limit as long as no reset_init failed half way. *)
Theorem buf_linear_bounds_partial : forall ao m i b ops b' rs,
  init_ok i -> linear_create ao m i = Ok (inl b) -> Forall (op_ok m) ops -> buf_run b ops = Ok (b', rs) ->
  bused b' <= allocated b' /\ (resets_done ops rs -> ilimit (binit b') = 0 \/ allocated b' <= ilimit (binit b')).
Proof. exact linear_bounds_lemma. Qed.
Print Assumptions buf_linear_bounds_partial.

Example buf_linear_bounds_partial_ex :
  forall b' rs, buf_run (made (linear_create true PLAIN ex_init)) [OAdd true (DBytes (B "hello")) false; OReset true] = Ok (b', rs) ->
  resets_done [OAdd true (DBytes (B "hello")) false; OReset true] rs /\ allocated b' = 4.
Proof. intros b' rs E. vm_compute in E. injection E as <- <-. split; [repeat constructor|reflexivity]. Qed.

(* C18 without that condition: a reset_init that cannot get memory has already installed the new, lower limit. *)
Theorem buf_limit_refuted : exists b ops b' rs,
  init_ok ex_init /\ linear_create true PLAIN ex_init = Ok (inl b) /\ Forall (op_ok PLAIN) ops /\ buf_run b ops = Ok (b', rs) /\
  ilimit (binit b') <> 0 /\ ilimit (binit b') < allocated b'.
Proof.
  exists (made (linear_create true PLAIN ex_init)),
    [OAdd true (DBytes (B "hello world")) false; OResetInit false (Some {| isize := 4; istep := 4; ilimit := 8 |})].
  eexists _, _. split; [exact ex_init_ok|]. split; [reflexivity|]. split; [|split; [reflexivity|split; [discriminate|reflexivity]]].
  repeat constructor; vm_compute; try discriminate; auto.
Qed.
Print Assumptions buf_limit_refuted.

(* A limit with a zero allocation step divides by zero in _check_buf. *)
Theorem buf_zero_step_refuted : linear_create true PLAIN {| isize := 4; istep := 0; ilimit := 8 |} = UB.
Proof. reflexivity. Qed.
Print Assumptions buf_zero_step_refuted.

(* A length so large that the position wraps is accepted and then written out of bounds. *)
Theorem buf_huge_add_refuted : exists b b' r m p,
  linear_create true PLAIN ex_init = Ok (inl b) /\ sid_buf_add true b (DBytes (B "ab")) false = Ok (b', r, m, p) /\ r = 0%Z /\
  sid_buf_add true b' (DZero (2 ^ 64 - 1)) false = UB.
Proof. eexists _, _, _, _, _. split; [vm_compute; reflexivity|]. split; [vm_compute; reflexivity|]. split; vm_compute; reflexivity. Qed.
Print Assumptions buf_huge_add_refuted.

(* C18: exactly when an addition succeeds; a refused one leaves the buffer as it was. *)
Theorem buf_linear_add_refusal : forall ao m i b ops b' rs d w ao',
  init_ok i -> linear_create ao m i = Ok (inl b) -> Forall (op_ok m) ops -> buf_run b ops = Ok (b', rs) ->
  ad_len d <= 2 ^ 62 -> bmark b' = None ->
  exists b2 r mm p, sid_buf_add ao' b' d w = Ok (b2, r, mm, p) /\
    let need := pfx m + linear_count b' + ad_len d in
    let step := istep (binit b') in
    (r = 0%Z <-> (need <= allocated b' \/
       (step <> 0 /\ (ilimit (binit b') = 0 \/ need <= ilimit (binit b')) /\ ao' = true /\
        step * ((need + step - 1) / step) < 2 ^ 63))) /\
    (r = 0%Z -> linear_count b2 = linear_count b' + ad_len d) /\
    (r <> 0%Z -> b2 = b').
Proof. exact linear_add_iff_lemma. Qed.
Print Assumptions buf_linear_add_refusal.

Example buf_linear_add_refusal_ex :
  let b := ran (buf_run (made (linear_create true PLAIN ex_init)) [OAdd true (DBytes (B "hello")) false]) in
  bmark b = None /\ allocated b = 8 /\
  sid_buf_add true b (DZero 27) false <> Ok (b, (- EOVERFLOW)%Z, None, 0) /\
  sid_buf_add true b (DZero 28) false = Ok (b, (- EOVERFLOW)%Z, None, 0).
Proof. split; [reflexivity|]. split; [reflexivity|]. split; [discriminate|reflexivity]. Qed.

(* C19: [bound] are the positions handed out and not yet released. *)
Theorem buf_linear_mark_partial : forall ao m i b ops b' rs c bound,
  init_ok i -> linear_create ao m i = Ok (inl b) -> Forall (op_ok m) ops -> buf_run b ops = Ok (b', rs) ->
  bound_run m [] [] ops rs c bound ->
  forall ao' d w, ad_len d <= 2 ^ 62 ->
  exists b2 r mm p, sid_buf_add ao' b' d w = Ok (b2, r, mm, p) /\
    (bound <> [] -> r = (- EBUSY)%Z) /\
    (r = (- EBUSY)%Z -> b2 = b' /\ (c <> [] -> bound <> [])).
Proof. exact linear_mark_lemma. Qed.
Print Assumptions buf_linear_mark_partial.

Example buf_linear_mark_partial_ex :
  let ops := [OAdd true (DBytes (B "abc")) false; OAdd true (DBytes (B "def")) true; ORelease 4 ABS false] in
  exists rs bound, bound_run PLAIN [] [] ops rs (B "abcdef") bound /\ bound = [3] /\
  rets (buf_run (made (linear_create true PLAIN ex_init)) ops) = map ret rs.
Proof.
  exists [{| ret := 0; rmem := None; rpos := 0; rdata := None |}; {| ret := 0; rmem := Some 3; rpos := 3; rdata := None |}; rcode 0], [3].
  split; [|split; reflexivity].
  eapply br_cons with (c1 := B "abc"); [exact I|left; repeat split; discriminate|].
  eapply br_cons with (c1 := B "abcdef"); [exact I|left; repeat split|].
  eapply br_cons with (c1 := B "abcdef"); [exact I|split; reflexivity|]. apply br_nil.
Qed.

(* C19 without the condition on get_data_from: the later, lower request is not recorded, and releasing the first
   hand-out frees the buffer while the second is still out. *)
Theorem buf_mark_refuted : exists b ops b' rs,
  linear_create true PLAIN ex_init = Ok (inl b) /\
  ops = [OAdd true (DBytes (B "abcdef")) false; OGet 4; OGet 2; ORelease 4 ABS false; OAdd true (DBytes (B "xyz")) false] /\
  buf_run b ops = Ok (b', rs) /\ map ret rs = [0; 0; 0; 0; 0]%Z.
Proof. eexists _, _, _, _. split; [vm_compute; reflexivity|]. split; [vm_compute; reflexivity|]. split; vm_compute; reflexivity. Qed.
Print Assumptions buf_mark_refuted.

(* C19, second half: on empty contents unbinding at the marked position does not make adds possible again. *)
Theorem buf_unbind_empty_refuted : exists b ops b' rs,
  linear_create true PLAIN ex_init = Ok (inl b) /\
  ops = [OGet 0; ORelease 0 ABS false; ORelease 0 ABS true; OAdd true (DBytes (B "x")) false] /\
  buf_run b ops = Ok (b', rs) /\ map ret rs = [0; 0; 0; - EBUSY]%Z.
Proof. eexists _, _, _, _. split; [vm_compute; reflexivity|]. split; [vm_compute; reflexivity|]. split; vm_compute; reflexivity. Qed.
Print Assumptions buf_unbind_empty_refuted.

(* C20/C23: for any stream and any fragmentation the buffer holds what was read and is complete exactly when that is the announced size. *)
Theorem buf_read_safe : forall ao i b w ans,
  init_ok i -> linear_create ao PREFIX i = Ok (inl b) -> ans_ok ans ->
  exists b' ns s' cpl, read_run ans b w = Ok (b', ns, s') /\ linear_is_complete b' = Ok cpl /\
    (exists j, s' = skipn j w /\ (j <= length w)%nat /\ bused b' = N.of_nat j /\
      (cpl = true <-> (4 <= j)%nat /\ announced w = Some (N.of_nat j)) /\
      (cpl = true -> exists b'', buf_step b' (OGet 0) =
         Ok (b'', {| ret := 0; rmem := Some 4; rpos := 0; rdata := Some (map Some (firstn (j - 4) (skipn 4 w))) |}))).
Proof. exact read_safety_lemma. Qed.
Print Assumptions buf_read_safe.

Example buf_read_safe_ex :
  exists b' ns s', read_run [(true, RGive 3); (true, RErr EAGAIN); (true, RGive 1); (true, RGive 5)]
                     (made (linear_create true PREFIX ex_nolim)) (message (B "hello") ++ B "rest") = Ok (b', ns, s') /\
  ns = [3; - EAGAIN; 1; 5]%Z /\ linear_is_complete b' = Ok true /\ s' = B "rest".
Proof. eexists _, _, _. split; [vm_compute; reflexivity|]. split; [vm_compute; reflexivity|]. split; vm_compute; reflexivity. Qed.

(* C20: a message alone on the stream for any init, or followed by others with a size not above the message's and step 1. *)
Theorem buf_read_delivers_partial : forall i b p rest ans,
  init_ok i -> linear_create true PREFIX i = Ok (inl b) -> 4 + len p < 2 ^ 32 -> creatable i (4 + len p) ->
  (rest = [] \/ (isize i <= len p /\ istep i = 1)) ->
  Forall (fun a => match a with RGive k => k <> 0 | RErr e => (0 < e)%Z end) ans ->
  exists b' ns s' done, read_run (map (pair true) ans) b (message p ++ rest) = Ok (b', ns, s') /\
    message p ++ rest = firstn done (message p) ++ s' /\ (done <= length (message p))%nat /\
    linear_is_complete b' = Ok (done =? length (message p))%nat /\
    (done = length (message p) -> s' = rest /\ exists b'', buf_step b' (OGet 0) =
       Ok (b'', {| ret := 0; rmem := Some 4; rpos := 0; rdata := Some (map Some p) |})) /\
    (* and the next read makes progress until then *)
    (forall k, k <> 0 -> (done < length (message p))%nat -> exists b'' n s'', sid_buf_read true (RGive k) b' s' = Ok (b'', n, s'') /\
       (0 < n)%Z /\ Z.of_N (bused b'') = (Z.of_nat done + n)%Z).
Proof. exact deliver_lemma. Qed.
Print Assumptions buf_read_delivers_partial.

Example buf_read_delivers_partial_ex :
  init_ok ex_nolim /\ (exists b, linear_create true PREFIX ex_nolim = Ok (inl b)) /\ creatable ex_nolim (4 + len (B "hello")) /\
  (B "rest" = [] \/ (isize ex_nolim <= len (B "hello") /\ istep ex_nolim = 1)).
Proof.
  split; [exact ex_nolim_ok|]. split; [eexists; reflexivity|]. split; [|right; split; [discriminate|reflexivity]].
  split; [discriminate|]. split; [left; reflexivity|reflexivity].
Qed.

(* C20 without that condition: spare room takes bytes of the next message, and the buffer is never complete. *)
Theorem buf_read_overrun_refuted : exists b b' ns s',
  linear_create true PREFIX ex_grow = Ok (inl b) /\
  read_run [(true, RGive 4); (true, RGive 100); (true, RGive 100)] b (message (B "hello") ++ message (B "world")) = Ok (b', ns, s') /\
  ns = [4; 14; - EBADMSG]%Z /\ linear_is_complete b' = Ok false /\ s' = [].
Proof. eexists _, _, _, _. split; [vm_compute; reflexivity|]. split; [vm_compute; reflexivity|]. split; [vm_compute; reflexivity|]. split; vm_compute; reflexivity. Qed.
Print Assumptions buf_read_overrun_refuted.

(* C23: end of stream inside a message, and a prefix announcing less than itself. *)
Theorem buf_read_malformed_partial : forall ao i b w ans b' ns s',
  init_ok i -> linear_create ao PREFIX i = Ok (inl b) -> ans_ok ans -> read_run ans b w = Ok (b', ns, s') ->
  linear_is_complete b' = Ok false ->
  (* end of stream inside a message *)
  (s' = [] -> forall ao' k, exists b'', sid_buf_read ao' (RGive k) b' [] =
     Ok (b'', if bused b' =? 0 then 0%Z else (- EBADMSG)%Z, [])) /\
  (* a prefix announcing less than itself *)
  (forall q, announced w = Some q -> 0 < q < 4 -> forall ao' k b'' n s'', sid_buf_read ao' (RGive k) b' s' = Ok (b'', n, s'') ->
     4 <= bused b'' -> bused b' < bused b'' -> n = (- EBADE)%Z).
Proof. exact read_error_lemma. Qed.
Print Assumptions buf_read_malformed_partial.

Example buf_read_malformed_partial_ex :
  let w := ["002"; "000"; "000"; "000"; "x"]%char in
  announced w = Some 2 /\
  exists b' n s', sid_buf_read true (RGive 100) (made (linear_create true PREFIX ex_nolim)) w = Ok (b', n, s') /\ n = (- EBADE)%Z.
Proof. split; [vm_compute; reflexivity|]. eexists _, _, _. split; vm_compute; reflexivity. Qed.

(* C23: an announced size of zero is not reported when read. *)
Theorem buf_read_zero_prefix_refuted : exists b b' ns s',
  linear_create true PREFIX ex_nolim = Ok (inl b) /\
  read_run [(true, RGive 100)] b (repeat NUL 4 ++ B "x") = Ok (b', ns, s') /\ ns = [4%Z] /\ linear_is_complete b' = Ok false.
Proof. eexists _, _, _, _. split; [vm_compute; reflexivity|]. split; [vm_compute; reflexivity|]. split; vm_compute; reflexivity. Qed.
Print Assumptions buf_read_zero_prefix_refuted.

(* C21, linear buffers. *)
Theorem buf_linear_write_all : forall ao m i b ops b' rs c ans,
  init_ok i -> linear_create ao m i = Ok (inl b) -> Forall (op_ok m) ops -> buf_run b ops = Ok (b', rs) ->
  buf_specs m [] ops rs c -> Forall wrans_ok ans ->
  exists b'' r out, write_all lbuf linear_write ans b' 0 = Ok (b'', r, out) /\
    write_all_spec ans (wire m (bused b' =? 0) c) r out.
Proof. exact linear_write_all_lemma. Qed.
Print Assumptions buf_linear_write_all.

Example buf_linear_write_all_ex :
  let b := ran (buf_run (made (linear_create true PREFIX ex_init)) [OAdd true (DBytes (B "hello")) false]) in
  write_all lbuf linear_write [WTake 3; WErr EAGAIN; WErr EINTR; WTake 0; WTake 100] b 0 =
    match linear_update_prefix b with Ok b' => Ok (b', Some 0%Z, message (B "hello")) | UB => UB end.
Proof. reflexivity. Qed.

(* C21: ENODATA from the kernel is taken for the end of the buffer. *)
Theorem buf_write_enodata_refuted : exists b b' out,
  linear_create true PLAIN ex_init = Ok (inl b) /\
  (let! (b, r, m, p) := sid_buf_add true b (DBytes (B "hello")) false in write_all lbuf linear_write [WTake 2; WErr ENODATA] b 0)
  = Ok (b', Some 0%Z, out) /\ out = B "he".
Proof. eexists _, _, _. split; [vm_compute; reflexivity|]. split; vm_compute; reflexivity. Qed.
Print Assumptions buf_write_enodata_refuted.

(* C21, vector buffers; C22: the prefix on the wire is the number of bytes sent. *)
Theorem buf_vec_write_all_partial : forall ao m i b ops b' rs c ans,
  vinit_ok i -> vector_create ao m i = Ok (inl b) -> Forall (vop_ok m) ops -> vec_run b ops = Ok (b', rs) ->
  vec_specs [] ops rs c -> Forall wrans_ok ans -> (c = [] /\ m = PLAIN \/ m = PREFIX \/ List.concat c <> []) ->
  exists b'' r out, write_all vbuf vector_write ans b' 0 = Ok (b'', r, out) /\
    write_all_spec ans (wire m (vused b' =? 0) (List.concat c)) r out.
Proof. exact vec_write_all_lemma. Qed.
Print Assumptions buf_vec_write_all_partial.

Definition vex_init : bufinit := {| isize := 0; istep := 4; ilimit := 0 |}.
Definition vmade (r : outcome (vbuf + Z)) : vbuf :=
  match r with Ok (inl b) => b | _ => {| vmode := PLAIN; vinit := vex_init; vitems := []; vused := 0; vmark := None |} end.
Definition vran (r : outcome (vbuf * list vecres)) : vbuf := match r with Ok (b, _) => b | UB => vmade UB end.
Definition vex_ops : list vecop :=
  [VAdd true (VData (B "hello")) false; VAdd true (VData []) false; VAdd true (VData (B "wor")) true; VRelease 2 ABS false;
   VRelease 0 REL false; VAdd true (VData (B "ld")) false].

Example buf_vec_write_all_partial_ex :
  vinit_ok vex_init /\ Forall (vop_ok PREFIX) vex_ops /\
  exists b', write_all vbuf vector_write [WTake 3; WTake 4; WErr EAGAIN; WTake 100] (vran (vec_run (vmade (vector_create true PREFIX vex_init)) vex_ops)) 0
    = Ok (b', Some 0%Z, message (B "helloworld")).
Proof.
  split; [vm_compute; repeat split; discriminate|]. split; [repeat constructor|]. eexists. vm_compute. reflexivity.
Qed.

(* C21 without the last condition: writev of only empty items takes nothing and the position never moves. *)
Theorem buf_vec_write_all_hang_refuted : exists b b' r m p,
  vector_create true PLAIN vex_init = Ok (inl b) /\ vector_add true b (VData []) false = Ok (b', r, m, p) /\ r = 0%Z /\
  forall n, exists b'', write_all vbuf vector_write (repeat (WTake 100) n) b' 0 = Ok (b'', None, []).
Proof.
  eexists _, _, _, _, _. split; [reflexivity|]. split; [reflexivity|]. split; [reflexivity|].
  induction n as [|n [b'' IH]]; [eexists; reflexivity|]. eexists. cbn [repeat write_all].
  match goal with |- context [vector_write ?a ?b 0] => change (vector_write a b 0) with (Ok (b, 0%Z, @nil ascii)) end.
  cbn [obind]. change (0 <? 0)%Z with false. cbv iota. change (0 + Z.to_N 0) with 0. rewrite IH. reflexivity.
Qed.
Print Assumptions buf_vec_write_all_hang_refuted.

(* C22: items are exactly the retained ones, for additions of memory blocks. *)
Theorem buf_vec_content_partial : forall ao m i b ops,
  vinit_ok i -> vector_create ao m i = Ok (inl b) -> Forall (vop_ok m) ops ->
  exists b' rs c, vec_run b ops = Ok (b', rs) /\ vec_specs [] ops rs c /\ vector_count b' = N.of_nat (length c) /\
    exists b'' r, vec_step b' (VGet 0) = Ok (b'', r) /\ vret r = 0%Z /\ vrdata r = Some (map IData c).
Proof. exact vec_content_lemma. Qed.
Print Assumptions buf_vec_content_partial.

Example buf_vec_content_partial_ex :
  vinit_ok vex_init /\ (exists b, vector_create true PREFIX vex_init = Ok (inl b)) /\ Forall (vop_ok PREFIX) vex_ops /\
  vector_count (vran (vec_run (vmade (vector_create true PREFIX vex_init)) vex_ops)) = 4.
Proof.
  split; [vm_compute; repeat split; discriminate|]. split; [eexists; reflexivity|]. split; [repeat constructor|reflexivity].
Qed.

(* C22 for additions without data: they clear items added before ... *)
Theorem buf_vec_null_add_refuted : exists b b' rs,
  vector_create true PLAIN vex_init = Ok (inl b) /\
  vec_run b [VAdd true (VData (B "hello")) false; VAdd true (VNull 1) false; VGet 0] = Ok (b', rs) /\
  map vret rs = [0; 0; 0]%Z /\ map vrdata rs = [None; None; Some [INull; IUninit]].
Proof. eexists _, _, _. split; [vm_compute; reflexivity|]. split; [vm_compute; reflexivity|]. split; vm_compute; reflexivity. Qed.
Print Assumptions buf_vec_null_add_refuted.

(* ... and in size-prefix mode the prefix itself, so that writing dereferences NULL. *)
Theorem buf_vec_null_prefix_refuted : exists b b' r m p,
  vector_create true PREFIX vex_init = Ok (inl b) /\ vector_add true b (VNull 1) false = Ok (b', r, m, p) /\ r = 0%Z /\
  vector_write (WTake 100) b' 0 = UB.
Proof. eexists _, _, _, _, _. split; [vm_compute; reflexivity|]. split; [vm_compute; reflexivity|]. split; vm_compute; reflexivity. Qed.
Print Assumptions buf_vec_null_prefix_refuted.

(* C22 for get_data_from(pos > 0) on a plain vector: the pointer is before the items. *)
Theorem buf_vec_get_from_refuted : exists b b' rs,
  vector_create true PLAIN vex_init = Ok (inl b) /\
  vec_run b [VAdd true (VData (B "a")) false; VAdd true (VData (B "b")) false] = Ok (b', rs) /\ map vret rs = [0; 0]%Z /\
  vec_step b' (VGet 1) = UB.
Proof. eexists _, _, _. split; [vm_compute; reflexivity|]. split; [vm_compute; reflexivity|]. split; vm_compute; reflexivity. Qed.
Print Assumptions buf_vec_get_from_refuted.
