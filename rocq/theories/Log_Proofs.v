From Verif Require Import Base Tok_Model Tok_Proofs UtilStr_Model UbrRec_Model UbrRec_Proofs Log_Model Log_Spec.
Local Open Scope nat_scope.

Lemma chain_flat l : flat_map pfx_text l = chain l.
Proof. unfold chain. rewrite flat_map_concat_map. reflexivity. Qed.
Lemma chain_cons p l : chain (p :: l) = pfx_text p ++ chain l.
Proof. rewrite <- !chain_flat. reflexivity. Qed.
Lemma plain_pfx p : plain p -> plain (pfx_text p).
Proof. intros H Q. unfold pfx_text in Q. apply in_app_or in Q as [Q|Q]; [destruct Q as [Q|[]]; discriminate Q|]. apply in_app_or in Q as [Q|Q]; [exact (H Q)|destruct Q as [Q|[Q|[]]]; discriminate Q]. Qed.
Lemma plain_chain l : (forall p, In p l -> plain p) -> plain (chain l).
Proof.
  induction l as [|p l IH]; intros H; [intros []|]. rewrite chain_cons. intros Q. apply in_app_or in Q as [Q|Q]; [exact (plain_pfx p (H p (or_introl eq_refl)) Q)|].
  revert Q. apply IH. intros x Hx. apply H. right. exact Hx.
Qed.
Lemma plain_app a b : plain a -> plain b -> plain (a ++ b).
Proof. intros H1 H2 Q. apply in_app_or in Q as [Q|Q]; auto. Qed.
Lemma plain_first n (a : bytes) : plain a -> plain (firstn n a).
Proof. intros H Q. apply H. rewrite <- (firstn_skipn n a). apply in_or_app. auto. Qed.
Lemma long_lemma s n : n <= LINE -> too_long (printed_len s) n = (n <=? length s).
Proof.
  unfold LINE. intros Hn. unfold too_long, printed_len. destruct (2147483647 <? Z.of_nat (length s))%Z eqn:E; cbn [orb]; lia.
Qed.
Lemma short_len s n : n <= LINE -> length s < n -> Z.to_nat (printed_len s) = length s.
Proof. unfold LINE, printed_len. intros Hn L. destruct (2147483647 <? Z.of_nat (length s))%Z eqn:E; lia. Qed.
Lemma print_lemma a r n s : n <= length r -> 0 < n ->
  exists r', print_at (a ++ r) (length a) n s = Ok (a ++ firstn (n - 1) s ++ NUL :: r') /\ length (firstn (n - 1) s ++ NUL :: r') = length r.
Proof.
  intros L Hn. unfold print_at. assert (Lx : length (firstn (n - 1) s ++ [NUL]) <= length r) by (rewrite app_length, firstn_length; cbn [List.length]; lia).
  rewrite put_bytes_at by auto. exists (skipn (length (firstn (n - 1) s ++ [NUL])) r). rewrite <- app_assoc. cbn [app]. split; [reflexivity|].
  change (NUL :: skipn (length (firstn (n - 1) s ++ [NUL])) r) with ([NUL] ++ skipn (length (firstn (n - 1) s ++ [NUL])) r). rewrite app_assoc, app_length, skipn_length. lia.
Qed.
(* The journal *)
Lemma jrn_loop l : forall a r, length a + length r <= LINE -> 0 < length r ->
  if length (chain l) <? length r
  then exists r', jrn_prefixes (a ++ r) (length a) (length r) l = Ok (Some ((a ++ chain l) ++ r', length (a ++ chain l), length r')) /\ length (chain l) + length r' = length r
  else jrn_prefixes (a ++ r) (length a) (length r) l = Ok None.
Proof.
  induction l as [|p l IH]; intros a r L Hr.
  - cbn [chain map List.concat List.length]. rewrite (proj2 (Nat.ltb_lt 0 (length r)) Hr). exists r. cbn [jrn_prefixes]. change (chain []) with (@nil ascii). rewrite app_nil_r. auto.
  - cbn [jrn_prefixes]. destruct (print_lemma a r (length r) (pfx_text p) (le_n _) Hr) as (r' & -> & Lr). cbn [obind]. rewrite long_lemma by lia. rewrite chain_cons, app_length.
    destruct (Nat.leb_spec (length r) (length (pfx_text p))) as [G|G].
    + destruct (Nat.ltb_spec (length (pfx_text p) + length (chain l)) (length r)); [lia|reflexivity].
    + rewrite (short_len (pfx_text p) (length r)) by lia. rewrite firstn_all2 in * by lia. rewrite (app_assoc a (pfx_text p) (NUL :: r')).
      assert (Er : length r - length (pfx_text p) = length (NUL :: r')) by (rewrite app_length in Lr; lia).
      rewrite Er, <- (app_length a (pfx_text p)). specialize (IH (a ++ pfx_text p) (NUL :: r')). rewrite app_length in IH at 1.
      assert (P1 : length a + length (pfx_text p) + length (NUL :: r') <= LINE) by lia. assert (P2 : 0 < length (NUL :: r')) by (cbn [List.length]; lia). specialize (IH P1 P2).
      destruct (Nat.ltb_spec (length (chain l)) (length (NUL :: r'))) as [K|K]; (destruct (Nat.ltb_spec (length (pfx_text p) + length (chain l)) (length r)) as [M|M]; [|]); try lia.
      * destruct IH as (r2 & -> & L2). exists r2. rewrite (app_assoc a (pfx_text p) (chain l)). split; [reflexivity|lia].
      * exact IH.
Qed.
Lemma final_text c r text (N : length c + length r = LINE) : 0 < length r -> plain c -> plain text ->
  exists b, print_at (c ++ r) (length c) (length r) text = Ok b /\ string_at b = Ok (firstn (LINE - 1) (c ++ text)).
Proof.
  intros Hr Pc Pt. destruct (print_lemma c r (length r) text (le_n _) Hr) as (r' & -> & _). eexists. split; [reflexivity|].
  rewrite app_assoc, string_ok by (apply plain_app; [exact Pc|apply plain_first, Pt]). f_equal. rewrite firstn_app. f_equal.
  - symmetry. apply firstn_all2. lia.
  - f_equal. lia.
Qed.
Lemma cases_lemma l text whole long trunc o : length (chain l) < LINE ->
  o = (if LINE <=? length (chain l) + length text then [trunc] else []) ++ (if (0 <? printed_len text)%Z then [whole (firstn (LINE - 1) (chain l ++ text))] else []) ->
  line_cases l text whole long trunc o.
Proof.
  intros L ->. unfold line_cases, printed_len. destruct text as [|x t].
  - right. left. split; [exact L|]. split; [reflexivity|]. rewrite Nat.add_0_r. destruct (Nat.leb_spec LINE (length (chain l))); [lia|reflexivity].
  - set (text := x :: t) in *. assert (0 < length text) by (cbn; lia). destruct (Nat.leb_spec LINE (length (chain l) + length text)) as [G|G].
    + destruct (Z.ltb_spec 2147483647 (Z.of_nat (length text))) as [M|M].
      * right. right. right. left. split; [exact L|]. split; [lia|reflexivity].
      * right. right. left. split; [lia|]. split; [lia|]. destruct (Z.ltb_spec 0 (Z.of_nat (length text))); [reflexivity|lia].
    + left. split; [exact G|]. split; [discriminate|]. destruct (Z.ltb_spec 2147483647 (Z.of_nat (length text))) as [M|M]; [unfold LINE in G; lia|].
      destruct (Z.ltb_spec 0 (Z.of_nat (length text))); [|lia]. cbn [app]. rewrite firstn_all2; [reflexivity|]. rewrite app_length. lia.
Qed.
Lemma jrn_lemma t msg q : length msg = LINE -> plain_req q -> (q_level q <= t_max t)%Z ->
  let code := Some (q_file q, q_line q, q_func q) in
  exists o, jrn_output t msg q = Ok o
   /\ line_cases (q_pfx q) (q_text q) (fun s => OJournal s (Some (hd [] (q_pfx q))) (q_level q) (if t_src t then code else None))
        (OJournal (B "(log prefix too long)") None (q_level q) code) (OJournal (B "(log message truncated)") None (q_level q) code) o.
Proof.
  intros L (Pp & Pt) Lv code. unfold jrn_output. destruct (Z.ltb_spec (t_max t) (q_level q)); [lia|].
  pose proof (jrn_loop (q_pfx q) [] msg) as J. cbn [List.length Nat.add app] in J. assert (H1 : length msg <= LINE) by lia. assert (H2 : 0 < length msg) by (unfold LINE in L; lia). specialize (J H1 H2).
  destruct (Nat.ltb_spec (length (chain (q_pfx q))) (length msg)) as [G|G].
  - destruct J as (r & -> & Lr). cbn [obind]. destruct (final_text (chain (q_pfx q)) r (q_text q)) as (b & -> & Sb); [lia|lia|apply plain_chain, Pp|exact Pt|]. cbn [obind].
    rewrite long_lemma by lia.
    assert (R : (LINE <=? length (chain (q_pfx q)) + length (q_text q)) = (length r <=? length (q_text q))) by (destruct (Nat.leb_spec (length r) (length (q_text q))), (Nat.leb_spec LINE (length (chain (q_pfx q)) + length (q_text q))); lia || reflexivity).
    destruct (0 <? printed_len (q_text q))%Z eqn:Z0.
    + rewrite Sb. cbn [obind]. eexists. split; [reflexivity|]. apply cases_lemma; [lia|]. rewrite R, Z0. replace (hd [] (q_pfx q)) with (match q_pfx q with p :: _ => p | [] => [] end) by (destruct (q_pfx q); reflexivity). reflexivity.
    + eexists. split; [reflexivity|]. apply cases_lemma; [lia|]. rewrite R, Z0, app_nil_r. reflexivity.
  - rewrite J. cbn [obind]. eexists. split; [reflexivity|]. do 4 right. split; [lia|]. eauto.
Qed.

(* syslog *)
Lemma print_start buf s : 0 < length buf -> exists r, print_at buf 0 (length buf) s = Ok (firstn (length buf - 1) s ++ NUL :: r) /\ length (firstn (length buf - 1) s ++ NUL :: r) = length buf.
Proof. intros H. destruct (print_lemma [] buf (length buf) s (le_n _) H) as (r & E & L). exists r. auto. Qed.
Lemma last_cons (p : bytes) l x : last (p :: l) x = last l p.
Proof. revert p x. induction l as [|y l IH]; intros p x; [reflexivity|]. change (last (y :: l) x = last (y :: l) p). rewrite !IH. reflexivity. Qed.
Lemma sys_loop l : forall p buf r printed remaining, buf = pfx_text p ++ NUL :: r -> length buf = LINE -> printed + remaining = LINE -> length (pfx_text p) <= printed -> 0 < remaining ->
  if length (chain l) <? remaining
  then exists r', sys_prefixes buf printed remaining l = Ok (Some (pfx_text (last l p) ++ NUL :: r', printed + length (chain l), remaining - length (chain l))) /\ length (pfx_text (last l p) ++ NUL :: r') = LINE
         /\ (length (pfx_text (last l p)) <= printed + length (chain l)) /\ (l <> [] -> length (pfx_text (last l p)) < printed + length (chain l))
  else sys_prefixes buf printed remaining l = Ok None.
Proof.
  induction l as [|x l IH]; intros p buf r printed remaining E L S Hp Hr.
  - change (length (chain [])) with 0. rewrite (proj2 (Nat.ltb_lt 0 remaining) Hr). exists r. cbn [sys_prefixes last]. rewrite Nat.add_0_r, Nat.sub_0_r, E. split; [reflexivity|]. rewrite <- E. split; [exact L|]. split; [exact Hp|contradiction].
  - cbn [sys_prefixes]. assert (Hb : 0 < length buf) by (unfold LINE in L; lia). destruct (print_start buf (pfx_text x) Hb) as (r1 & -> & L1). cbn [obind]. rewrite long_lemma by lia. rewrite chain_cons, app_length.
    destruct (Nat.leb_spec remaining (length (pfx_text x))) as [G|G].
    + destruct (Nat.ltb_spec (length (pfx_text x) + length (chain l)) remaining); [lia|reflexivity].
    + rewrite (short_len (pfx_text x) remaining) by lia.
      assert (Lp : 0 < length (pfx_text p)) by (unfold pfx_text; rewrite app_length; cbn [B list_ascii_of_string List.length]; lia).
      rewrite firstn_all2 in * by lia. rewrite last_cons.
      specialize (IH x (pfx_text x ++ NUL :: r1) r1 (printed + length (pfx_text x)) (remaining - length (pfx_text x)) eq_refl).
      assert (Q1 : length (pfx_text x ++ NUL :: r1) = LINE) by lia. assert (Q2 : printed + length (pfx_text x) + (remaining - length (pfx_text x)) = LINE) by lia.
      assert (Q3 : length (pfx_text x) <= printed + length (pfx_text x)) by lia. assert (Q4 : 0 < remaining - length (pfx_text x)) by lia. specialize (IH Q1 Q2 Q3 Q4).
      destruct (Nat.ltb_spec (length (chain l)) (remaining - length (pfx_text x))) as [K|K]; (destruct (Nat.ltb_spec (length (pfx_text x) + length (chain l)) remaining) as [M|M]; [|]); try lia; [|exact IH].
      destruct IH as (r2 & -> & L2 & I1 & I2). exists r2. rewrite Nat.add_assoc, Nat.sub_add_distr. split; [reflexivity|]. split; [exact L2|]. split; [exact I1|]. intros _.
      destruct l as [|y l]; [cbn [last] in *; change (length (chain [])) with 0; lia|]. apply I2. discriminate.
Qed.
Lemma sys_none t msg q : (t_max t < q_level q)%Z -> sys_output t msg q = Ok [].
Proof. intros H. unfold sys_output. rewrite (proj2 (Z.ltb_lt _ _) H). reflexivity. Qed.
Lemma jrn_none t msg q : (t_max t < q_level q)%Z -> jrn_output t msg q = Ok [].
Proof. intros H. unfold jrn_output. rewrite (proj2 (Z.ltb_lt _ _) H). reflexivity. Qed.
Lemma sys_lemma t msg q : length msg = LINE -> plain_req q -> (q_level q <= t_max t)%Z -> length (q_pfx q) <= 1 ->
  exists o, sys_output t msg q = Ok o
   /\ line_cases (q_pfx q) (q_text q) (OSyslog (q_level q)) (OSyslog (q_level q) SYS_LONG) (OSyslog (q_level q) SYS_TRUNC) o.
Proof.
  intros L (Pp & Pt) Lv One. unfold sys_output. destruct (Z.ltb_spec (t_max t) (q_level q)); [lia|].
  assert (H2 : 0 < length msg) by (unfold LINE in L; lia).
  assert (F : forall r, length (chain (q_pfx q)) + length r = LINE -> 0 < length r -> exists o, 
    (let! buf := print_at (chain (q_pfx q) ++ r) (length (chain (q_pfx q))) (length r) (q_text q) in
      let note := if too_long (printed_len (q_text q)) (length r) then [OSyslog (q_level q) SYS_TRUNC] else [] in
      if (0 <? printed_len (q_text q))%Z then let! s := string_at buf in Ok (note ++ [OSyslog (q_level q) s]) else Ok note) = Ok o
    /\ line_cases (q_pfx q) (q_text q) (OSyslog (q_level q)) (OSyslog (q_level q) SYS_LONG) (OSyslog (q_level q) SYS_TRUNC) o).
  { intros r Lr Hr. destruct (final_text (chain (q_pfx q)) r (q_text q) Lr Hr) as (b & -> & Sb); [apply plain_chain, Pp|exact Pt|]. cbn [obind]. cbv zeta.
    rewrite long_lemma by lia.
    assert (R : (LINE <=? length (chain (q_pfx q)) + length (q_text q)) = (length r <=? length (q_text q))) by (destruct (Nat.leb_spec (length r) (length (q_text q))), (Nat.leb_spec LINE (length (chain (q_pfx q)) + length (q_text q))); lia || reflexivity).
    destruct (0 <? printed_len (q_text q))%Z eqn:Z0.
    - rewrite Sb. cbn [obind]. eexists. split; [reflexivity|]. apply cases_lemma; [lia|]. rewrite R, Z0. reflexivity.
    - eexists. split; [reflexivity|]. apply cases_lemma; [lia|]. rewrite R, Z0, app_nil_r. reflexivity. }
  destruct (q_pfx q) as [|p [|]] eqn:Eq; [| |cbn in One; lia].
  - cbn [sys_prefixes obind]. apply (F msg); [exact L|exact H2].
  - cbn [sys_prefixes]. destruct (print_start msg (pfx_text p) H2) as (r & -> & Lr). cbn [obind]. rewrite long_lemma by lia.
    assert (C : chain [p] = pfx_text p) by (rewrite chain_cons; apply app_nil_r). rewrite C in F.
    destruct (Nat.leb_spec (length msg) (length (pfx_text p))) as [G|G].
    + cbn [obind]. eexists. split; [reflexivity|]. do 4 right. rewrite C. split; [lia|]. eauto.
    + rewrite (short_len (pfx_text p) (length msg)) by lia. rewrite firstn_all2 in * by lia. cbn [Nat.add obind].
      assert (E : length msg - length (pfx_text p) = length (NUL :: r)) by (rewrite app_length in Lr; lia). rewrite E. apply F; cbn [List.length] in *; lia.
Qed.
Lemma sys_lost t msg q : length msg = LINE -> (forall p, In p (q_pfx q) -> plain p) -> (q_level q <= t_max t)%Z -> 2 <= length (q_pfx q) ->
  length (chain (q_pfx q)) + length (q_text q) < LINE -> q_text q <> [] ->
  sys_output t msg q = Ok [OSyslog (q_level q) (pfx_text (last (q_pfx q) []))].
Proof.
  intros L Pp Lv Two Fit Ne. unfold sys_output. destruct (Z.ltb_spec (t_max t) (q_level q)); [lia|].
  assert (H2 : 0 < length msg) by (unfold LINE in L; lia). set (text := q_text q) in *. set (l := q_pfx q) in *. clearbody l text.
  destruct l as [|p [|p2 l]]; [cbn in Two; lia|cbn in Two; lia|]. rewrite chain_cons, app_length in Fit.
  change (sys_prefixes msg 0 (length msg) (p :: p2 :: l)) with (let! buf := print_at msg 0 (length msg) (pfx_text p) in
    if too_long (printed_len (pfx_text p)) (length msg) then Ok None else sys_prefixes buf (0 + Z.to_nat (printed_len (pfx_text p))) (length msg - Z.to_nat (printed_len (pfx_text p))) (p2 :: l)).
  destruct (print_start msg (pfx_text p) H2) as (r & -> & Lr). cbn [obind]. rewrite long_lemma by lia. destruct (Nat.leb_spec (length msg) (length (pfx_text p))) as [G|G]; [lia|].
  rewrite (short_len (pfx_text p) (length msg)) by lia. rewrite firstn_all2 in * by lia. cbn [Nat.add].
  assert (S1 : length (pfx_text p ++ NUL :: r) = LINE) by lia. assert (S2 : length (pfx_text p) + (length msg - length (pfx_text p)) = LINE) by lia. assert (S3 : 0 < length msg - length (pfx_text p)) by lia.
  pose proof (sys_loop (p2 :: l) p _ r (length (pfx_text p)) (length msg - length (pfx_text p)) eq_refl S1 S2 (le_n _) S3) as X.
  destruct (Nat.ltb_spec (length (chain (p2 :: l))) (length msg - length (pfx_text p))) as [K|K]; [|lia]. destruct X as (r2 & -> & L2 & _ & I2). cbn [obind].
  rewrite !last_cons in *. set (lp := last l p2) in *. set (pr := length (pfx_text p) + length (chain (p2 :: l))) in *. assert (I3 : length (pfx_text lp) < pr) by (apply I2; discriminate). clear I2.
  set (rem := length msg - length (pfx_text p) - length (chain (p2 :: l))).
  assert (Dc : pfx_text lp ++ NUL :: r2 = (pfx_text lp ++ NUL :: firstn (pr - S (length (pfx_text lp))) r2) ++ skipn (pr - S (length (pfx_text lp))) r2) by (rewrite <- app_assoc; cbn [app]; rewrite firstn_skipn; reflexivity).
  assert (L3 : length r2 = LINE - S (length (pfx_text lp))) by (rewrite app_length in L2; cbn [List.length] in L2; lia).
  assert (La : length (pfx_text lp ++ NUL :: firstn (pr - S (length (pfx_text lp))) r2) = pr) by (rewrite app_length; cbn [List.length]; rewrite firstn_length; lia).
  rewrite Dc.
  destruct (print_lemma (pfx_text lp ++ NUL :: firstn (pr - S (length (pfx_text lp))) r2) (skipn (pr - S (length (pfx_text lp))) r2) rem text) as (r3 & E3 & _); [rewrite skipn_length; lia|lia|]. rewrite La in E3. fold rem. rewrite E3. clear E3. cbn [obind].
  rewrite long_lemma by lia. destruct (Nat.leb_spec rem (length text)); [lia|].
  assert (0 < length text) by (destruct text; [contradiction|cbn; lia]).
  assert (PL : (0 <? printed_len text)%Z = true) by (unfold printed_len; unfold LINE in *; destruct (2147483647 <? Z.of_nat (length text))%Z eqn:Q; lia). rewrite PL.
  rewrite <- app_assoc. cbn [app]. rewrite string_ok; [reflexivity|]. apply plain_pfx, Pp. right. unfold lp. clear. revert p2. induction l as [|y l IH]; intros p2; [left; reflexivity|]. right. rewrite last_cons. apply IH.
Qed.

(* Histories *)
Lemma nul_first (b : bytes) : In NUL b -> exists a r, b = a ++ NUL :: r /\ ~ In NUL a.
Proof.
  induction b as [|x b IH]; intros H; [destruct H|]. destruct (Ascii.eqb_spec x NUL) as [->|N]; [exists [], b; split; [reflexivity|intros []]|].
  destruct H as [H|H]; [contradiction|]. destruct (IH H) as (a & r & -> & Na). exists (x :: a), r. split; [reflexivity|]. intros [Q|Q]; auto.
Qed.
Lemma nul_string b : In NUL b -> exists s, string_at b = Ok s.
Proof. intros H. destruct (nul_first b H) as (a & r & -> & Na). exists a. apply string_ok, Na. Qed.
Lemma sys_any l : forall buf printed remaining, length buf = LINE -> printed + remaining = LINE -> 0 < remaining ->
  exists x, sys_prefixes buf printed remaining l = Ok x /\ match x with None => True | Some (b, p, r) => length b = LINE /\ p + r = LINE /\ 0 < r end.
Proof.
  induction l as [|x l IH]; intros buf pr rem L S H; [exists (Some (buf, pr, rem)); auto|cbn [sys_prefixes]].
  assert (Hb : 0 < length buf) by (unfold LINE in L; lia). destruct (print_start buf (pfx_text x) Hb) as (r & -> & Lr). cbn [obind]. rewrite long_lemma by lia.
  destruct (Nat.leb_spec rem (length (pfx_text x))); [exists None; auto|]. rewrite (short_len (pfx_text x) rem) by lia. apply IH; lia.
Qed.
Lemma sys_total t msg q : length msg = LINE -> exists o, sys_output t msg q = Ok o /\ ((q_level q <= t_max t)%Z -> q_text q <> [] -> o <> []).
Proof.
  intros L. destruct (Z.lt_ge_cases (t_max t) (q_level q)) as [G|G]; [exists []; split; [apply sys_none, G|lia]|].
  unfold sys_output. rewrite (proj2 (Z.ltb_ge _ _) G). destruct (sys_any (q_pfx q) msg 0 (length msg)) as (x & -> & Hx); [auto|lia|unfold LINE in L; lia|]. cbn [obind].
  destruct x as [[[b p] r]|]; [|eexists; split; [reflexivity|discriminate]]. destruct Hx as (Lb & S & Hr).
  assert (Fp : length (firstn p b) = p) by (rewrite firstn_length; lia).
  destruct (print_lemma (firstn p b) (skipn p b) r (q_text q)) as (r2 & E & _); [rewrite skipn_length; lia|auto|]. rewrite firstn_skipn, Fp in E. rewrite E. cbn [obind]. rewrite long_lemma by lia.
  destruct (0 <? printed_len (q_text q))%Z eqn:Z0.
  - destruct (nul_string (firstn p b ++ firstn (r - 1) (q_text q) ++ NUL :: r2)) as (s & ->); [apply in_or_app; right; apply in_or_app; right; left; reflexivity|]. cbn [obind].
    eexists. split; [reflexivity|]. intros _ _ Q. apply app_eq_nil in Q as (_ & Q). discriminate Q.
  - eexists. split; [reflexivity|]. intros _ Ne. destruct (q_text q) as [|y t0]; [contradiction|]. unfold printed_len in Z0. set (n := length (y :: t0)) in *.
    assert (0 < n) by (unfold n; cbn; lia). assert (LINE < 5000) by (unfold LINE; lia). destruct (2147483647 <? Z.of_nat n)%Z eqn:Q; [|lia]. destruct (Nat.leb_spec r n); [discriminate|lia].
Qed.
Lemma line_nonempty l text w lo tr o : line_cases l text w lo tr o -> text <> [] -> o <> [].
Proof. intros [(_ & _ & ->)|[(_ & E & _)|[(_ & _ & ->)|[(_ & _ & ->)|(_ & r & ->)]]]] Ne; try discriminate. contradiction. Qed.
Definition max_of (g : log) : Z := match g_target g with TNone => 0 | TStandard => t_max (g_std g) | TSyslog => t_max (g_sys g) | TJournal => t_max (g_jrn g) end.
Lemma target_total g n q : stack_ok n -> plain_req q -> exists o, target_output g n q = Ok o
  /\ (g_target g = TNone -> o = [])
  /\ ((max_of g < q_level q)%Z -> ~ (g_target g = TStandard /\ q_level q = 128%Z) -> o = [])
  /\ (g_target g <> TNone -> (q_level q <= max_of g)%Z \/ (g_target g = TStandard /\ q_level q = 128%Z) -> q_text q <> [] -> o <> []).
Proof.
  intros Sn Pq. unfold target_output, max_of. destruct (g_target g).
  - eexists. split; [reflexivity|]. split; [auto|]. split; [auto|]. intros X. contradiction.
  - eexists. split; [reflexivity|]. split; [discriminate|]. unfold std_output, LOG_PRINT. split.
    + intros H1 H2. rewrite (proj2 (Z.ltb_lt _ _) H1). destruct (Z.eqb_spec (q_level q) 128); [tauto|reflexivity].
    + intros _ H _. destruct H as [H|[_ ->]]; [rewrite (proj2 (Z.ltb_ge _ _) H)|rewrite andb_comm]; discriminate.
  - destruct (sys_total (g_sys g) (n_msg n) q Sn) as (o & E & Ho). exists o. split; [exact E|]. split; [discriminate|]. split.
    + intros H _. rewrite sys_none in E by exact H. congruence.
    + intros _ [H|[H _]]; [auto|discriminate].
  - destruct (Z.lt_ge_cases (t_max (g_jrn g)) (q_level q)) as [G|G].
    + rewrite (jrn_none _ _ _ G). eexists. split; [reflexivity|]. split; [auto|]. split; [auto|]. intros _ [H|[H _]]; [lia|discriminate].
    + destruct (jrn_lemma (g_jrn g) (n_msg n) q Sn Pq G) as (o & -> & C). exists o. split; [reflexivity|]. split; [discriminate|]. split; [intros; lia|]. intros _ _. apply (line_nonempty _ _ _ _ _ _ C).
Qed.
Definition pfx_ok (g : log) : Prop := match g_prefix g with Some p => plain p | None => True end.
Lemma no_handle_plain : plain NO_HANDLE.
Proof. unfold plain, NO_HANDLE. vm_compute. intuition discriminate. Qed.
Lemma voutput_same g n h q g' o : voutput g n h q = Ok (g', o) ->
  g_required g' = g_required g /\ g_target g' = g_target g /\ g_verbose g' = g_verbose g /\ g_prefix g' = g_prefix g /\ g_std g' = g_std g /\ g_sys g' = g_sys g /\ g_jrn g' = g_jrn g
  /\ (g_ignored g = true -> g_ignored g' = true).
Proof.
  unfold voutput. intros E. destruct h; [|destruct (g_required g) eqn:R; [destruct (g_ignored g) eqn:I|]].
  - destruct (handle_output g n q); [|discriminate E]. injection E as <- <-. auto 10.
  - injection E as <- <-. auto 10.
  - destruct (handle_output _ _ _) as [x|]; [|discriminate E]. cbn [obind] in E. injection E as <- <-. cbn. auto 10.
  - destruct (target_output _ _ _) as [x|]; [|discriminate E]. cbn [obind] in E. injection E as <- <-. auto 10.
Qed.
Lemma voutput_total g n h q : pfx_ok g -> stack_ok n -> plain_req q -> exists g' o, voutput g n h q = Ok (g', o).
Proof.
  intros P Sn Pq. unfold voutput.
  assert (HO : forall q, plain_req q -> exists o, handle_output g n q = Ok o).
  { intros q0 (P1 & P2). unfold handle_output. set (q1 := Req _ _ _ _ _ _ _). destruct (target_total g n q1 Sn) as (o & E & _); [|eauto]. split; [|exact P2]. unfold q1. cbn [q_pfx].
    unfold pfx_ok in P. destruct (g_prefix g); [|exact P1]. intros x [<-|Hx]; auto. }
  destruct h; [destruct (HO q Pq) as (o & ->); cbn [obind]; eauto|]. destruct (g_required g); [destruct (g_ignored g); [eauto|]|].
  - destruct (HO (Req [] LOG_ERR 0 (q_file q) (q_line q) (q_func q) NO_HANDLE)) as (o & ->); [split; [intros ? []|exact no_handle_plain]|]. cbn [obind]. eauto.
  - set (q1 := Req _ _ _ _ _ _ _). destruct (target_total g n q1 Sn) as (o & -> & _); [exact Pq|]. cbn [obind]. eauto.
Qed.
(* What holds of the state after a history *)
Definition inv (g : log) (s : target * Z) : Prop := g_target g = fst s /\ g_verbose g = snd s /\ (g_target g <> TNone -> max_of g = threshold (snd s)).
Lemma threshold_std t v : t_max (open_std t v) = threshold v.
Proof. unfold open_std, threshold. destruct (Z.eqb_spec v 0); [subst; reflexivity|]. destruct (Z.eqb_spec v 1); [subst; reflexivity|]. destruct (Z.eqb_spec v 2); [subst; reflexivity|]. destruct (v =? 3)%Z; destruct v as [|[]|]; try reflexivity; lia. Qed.
Lemma threshold_sys t v : t_max (open_sys t v) = threshold v.
Proof. unfold open_sys, threshold. cbn [t_max]. destruct (Z.eqb_spec v 0); [subst; reflexivity|]. destruct (Z.eqb_spec v 1); [subst; reflexivity|]. destruct v as [|[]|]; try reflexivity; lia. Qed.
Lemma inv_init g s t v : inv g s -> inv (log_init g t v) (match fst s with TNone => (t, v) | _ => s end).
Proof.
  intros (E1 & E2 & E3). unfold log_init. rewrite E1 in *. destruct (fst s) eqn:F; [|rewrite <- F in *; unfold inv; rewrite E1; auto..].
  unfold inv, max_of. destruct t; cbn [open_target g_target g_verbose fst snd g_std g_sys g_jrn]; rewrite ?threshold_std, ?threshold_sys; repeat split; auto. intros X. contradiction.
Qed.
Lemma inv_step g s c g' o : inv g s -> lstep g c = Ok (g', o) -> inv g' (force s c).
Proof.
  intros I E. destruct c; cbn [lstep force] in *.
  - injection E as <- _. apply inv_init, I.
  - injection E as <- _. pose proof (inv_init g s t v I) as (X1 & X2 & X3). unfold log_init_with_handle. split; [exact X1|]. split; [exact X2|exact X3].
  - injection E as <- _. exact I.
  - injection E as <- _. destruct I as (E1 & E2 & E3). unfold log_change_tgt, inv, max_of in *. rewrite E1, E2 in *. destruct s as (t0, v). cbn [fst snd] in *.
    destruct t0, t; cbn [same_target open_target g_target g_verbose g_std g_sys g_jrn]; rewrite ?threshold_std, ?threshold_sys, ?E1; repeat split; auto; intros X; contradiction.
  - injection E as <- _. exact I.
  - apply voutput_same in E as (_ & T & V & _ & S1 & S2 & S3 & _). destruct I as (E1 & E2 & E3). unfold inv, max_of in *. rewrite T, V, S1, S2, S3. auto.
Qed.
Lemma lsteps_app l1 : forall g l2, lsteps g (l1 ++ l2) = (let! (g1, o1) := lsteps g l1 in let! (g2, o2) := lsteps g1 l2 in Ok (g2, o1 ++ o2)).
Proof.
  induction l1 as [|c l1 IH]; intros g l2; cbn [app lsteps].
  - cbn [obind]. destruct (lsteps g l2) as [[]|]; reflexivity.
  - destruct (lstep g c) as [(g1, o)|]; [|reflexivity]. cbn [obind]. rewrite IH. destruct (lsteps g1 l1) as [(g2, o2)|]; [|reflexivity]. cbn [obind].
    destruct (lsteps g2 l2) as [(g3, o3)|]; [|reflexivity]. cbn [obind]. rewrite app_assoc. reflexivity.
Qed.
(* An invariant of single steps holds after histories *)
Lemma history_ind (P : log -> Prop) {A} (f : A -> lcall -> A) (Q : log -> A -> Prop) : (forall g s c g' o, Q g s -> lstep g c = Ok (g', o) -> Q g' (f s c)) ->
  forall l g s g' o, Q g s -> lsteps g l = Ok (g', o) -> Q g' (fold_left f l s).
Proof.
  intros St. induction l as [|c l IH]; intros g s g' o H E; cbn [lsteps fold_left] in *; [injection E as <- _; exact H|].
  destruct (lstep g c) as [(g1, o1)|] eqn:E1; [|discriminate E]. cbn [obind] in E. destruct (lsteps g1 l) as [(g2, o2)|] eqn:E2; [|discriminate E]. cbn [obind] in E. injection E as <- _.
  eapply IH; [|exact E2]. eapply St; eauto.
Qed.
Lemma inv_history l g o : lsteps log0 l = Ok (g, o) -> inv g (in_force l).
Proof. apply (history_ind (fun _ => True) force inv inv_step). split; [reflexivity|]. split; [reflexivity|]. intros X. contradiction. Qed.
Lemma init_pfx g t v : g_prefix (log_init g t v) = g_prefix g /\ g_ignored (log_init g t v) = g_ignored g.
Proof. unfold log_init. destruct (g_target g); [destruct t; split; reflexivity|split; reflexivity..]. Qed.
Lemma change_pfx g t : g_prefix (log_change_tgt g t) = g_prefix g /\ g_ignored (log_change_tgt g t) = g_ignored g.
Proof. unfold log_change_tgt. destruct (same_target _ _); [split; reflexivity|]. destruct t; split; reflexivity. Qed.
Lemma history_total l : forall g, pfx_ok g -> Forall call_ok l -> exists g' o, lsteps g l = Ok (g', o) /\ pfx_ok g'.
Proof.
  induction l as [|c l IH]; intros g P F; cbn [lsteps]; [eauto|]. inversion F; subst.
  assert (X : exists g1 o1, lstep g c = Ok (g1, o1) /\ pfx_ok g1).
  { unfold pfx_ok in *. destruct c; cbn [lstep].
    - eexists _, _. split; [reflexivity|]. rewrite (proj1 (init_pfx g t v)). exact P.
    - eexists _, _. split; [reflexivity|]. cbn [log_init_with_handle g_prefix]. rewrite (proj1 (init_pfx g t v)). exact P.
    - eauto.
    - eexists _, _. split; [reflexivity|]. rewrite (proj1 (change_pfx g t)). exact P.
    - eexists _, _. split; [reflexivity|]. cbn. destruct p; auto.
    - destruct H1 as (S1 & S2). destruct (voutput_total g n handle q P S1 S2) as (g1 & o1 & E). exists g1, o1. split; [exact E|]. apply voutput_same in E as (_ & _ & _ & -> & _). exact P. }
  destruct X as (g1 & o1 & -> & P1). cbn [obind]. destruct (IH g1 P1 H2) as (g2 & o2 & -> & P2). cbn [obind]. eauto.
Qed.
Lemma handled g n q : pfx_ok g -> stack_ok n -> plain_req q -> exists o, voutput g n true q = Ok (g, o)
  /\ (g_target g = TNone -> o = [])
  /\ ((max_of g < q_level q)%Z -> ~ (g_target g = TStandard /\ q_level q = 128%Z) -> o = [])
  /\ (g_target g <> TNone -> (q_level q <= max_of g)%Z \/ (g_target g = TStandard /\ q_level q = 128%Z) -> q_text q <> [] -> o <> []).
Proof.
  intros P Sn (P1 & P2). unfold voutput, handle_output. set (q1 := Req _ _ _ _ _ _ _). destruct (target_total g n q1 Sn) as (o & -> & H).
  { split; [|exact P2]. unfold q1, pfx_ok in *. cbn [q_pfx]. destruct (g_prefix g); [|exact P1]. intros x [<-|Hx]; auto. }
  cbn [obind]. exists o. split; [reflexivity|exact H].
Qed.
Lemma levels_lemma l n q : Forall call_ok l -> stack_ok n -> plain_req q ->
  exists g o0 o, lsteps log0 l = Ok (g, o0) /\ lsteps log0 (l ++ [LOutput n true q]) = Ok (g, o0 ++ o)
   /\ (o <> [] -> fst (in_force l) <> TNone /\ ((q_level q <= threshold (snd (in_force l)))%Z \/ (fst (in_force l) = TStandard /\ q_level q = 128%Z)))
   /\ (fst (in_force l) <> TNone -> (q_level q <= threshold (snd (in_force l)))%Z \/ (fst (in_force l) = TStandard /\ q_level q = 128%Z) -> q_text q <> [] -> o <> []).
Proof.
  intros F Sn Pq. destruct (history_total l log0) as (g & o0 & E & P); [exact Coq.Init.Logic.I|exact F|]. destruct (handled g n q P Sn Pq) as (o & Eo & H1 & H2 & H3). exists g, o0, o. split; [exact E|].
  split; [rewrite lsteps_app, E; cbn [obind lsteps lstep]; rewrite Eo; cbn [obind]; rewrite app_nil_r; reflexivity|].
  destruct (inv_history l g o0 E) as (I1 & I2 & I3). rewrite <- I1. destruct (g_target g) eqn:T.
  - split; [|intros X; contradiction]. intros X. exfalso. apply X, H1. reflexivity.
  - rewrite <- I3 by discriminate. split; [|exact H3]. intros X. split; [discriminate|]. destruct (Z.le_gt_cases (q_level q) (max_of g)); [auto|]. destruct (Z.eq_dec (q_level q) 128); [auto|]. exfalso. apply X, H2; [lia|tauto].
  - rewrite <- I3 by discriminate. split; [|exact H3]. intros X. split; [discriminate|]. destruct (Z.le_gt_cases (q_level q) (max_of g)); [auto|]. exfalso. apply X, H2; [lia|intros (Q & _); discriminate Q].
  - rewrite <- I3 by discriminate. split; [|exact H3]. intros X. split; [discriminate|]. destruct (Z.le_gt_cases (q_level q) (max_of g)); [auto|]. exfalso. apply X, H2; [lia|intros (Q & _); discriminate Q].
Qed.
(* The lines of the standard target *)
Definition inv_n (g : log) (s : list bytes) : Prop := s = match g_prefix g with Some p => [p] | None => [] end.
Lemma named_history l g o : lsteps log0 l = Ok (g, o) -> inv_n g (named l).
Proof.
  apply (history_ind (fun _ => True) (fun s c => match c with LPrefix (Some p) => [p] | LPrefix None => [] | _ => s end) inv_n); [|reflexivity]. clear. intros g s c g' o H E.
  unfold inv_n in *. destruct c; cbn [lstep] in E.
  - injection E as <- _. rewrite (proj1 (init_pfx g t v)). exact H.
  - injection E as <- _. cbn [log_init_with_handle g_prefix]. rewrite (proj1 (init_pfx g t v)). exact H.
  - injection E as <- _. exact H.
  - injection E as <- _. rewrite (proj1 (change_pfx g t)). exact H.
  - injection E as <- _. destruct p; reflexivity.
  - apply voutput_same in E as (_ & _ & _ & -> & _). exact H.
Qed.
Definition calm (g : log) : Prop := (0 <= g_verbose g <= 2)%Z /\ t_err (g_std g) = false /\ t_pids (g_std g) = false /\ t_src (g_std g) = false.
Lemma calm_open t v : (0 <= v <= 2)%Z -> t_err (open_std t v) = t_err t /\ t_pids (open_std t v) = t_pids t /\ t_src (open_std t v) = t_src t.
Proof. intros H. unfold open_std. destruct (Z.eqb_spec v 0); [auto|]. destruct (Z.eqb_spec v 1); [auto|]. destruct (Z.eqb_spec v 2); [auto|lia]. Qed.
Lemma calm_init g t v : calm g -> (0 <= v <= 2)%Z -> calm (log_init g t v).
Proof.
  intros C V. unfold log_init. destruct (g_target g); [|exact C..]. destruct C as (_ & C1 & C2 & C3). unfold calm.
  destruct t; cbn [open_target g_verbose g_std]; [auto| |auto..]. destruct (calm_open (g_std g) v V) as (-> & -> & ->). auto.
Qed.
Lemma calm_history l : forall g g' o, calm g -> Forall quiet l -> lsteps g l = Ok (g', o) -> calm g'.
Proof.
  induction l as [|c l IH]; intros g g' o C F E; cbn [lsteps] in E; [injection E as <- _; exact C|]. inversion F; subst.
  destruct (lstep g c) as [(g1, o1)|] eqn:E1; [|discriminate E]. cbn [obind] in E. destruct (lsteps g1 l) as [(g2, o2)|] eqn:E2; [|discriminate E]. cbn [obind] in E. injection E as <- _.
  apply (IH g1 g2 o2); [|assumption|exact E2]. destruct c; cbn [lstep] in E1.
  - injection E1 as <- _. apply calm_init; assumption.
  - injection E1 as <- _. destruct (calm_init g t v C H1) as (X1 & X2). split; assumption.
  - injection E1 as <- _. exact C.
  - injection E1 as <- _. unfold log_change_tgt. destruct (same_target _ _); [exact C|]. destruct C as (V & C1 & C2 & C3). unfold calm.
    destruct t; cbn [open_target g_verbose g_std]; [auto| |auto..]. destruct (calm_open (g_std g) (g_verbose g) V) as (-> & -> & ->). auto.
  - injection E1 as <- _. exact C.
  - apply voutput_same in E1 as (_ & _ & V & _ & S1 & _). unfold calm. rewrite V, S1. exact C.
Qed.
Definition loud (g : log) : Prop := g_target g = TStandard -> ~ (0 <= g_verbose g <= 2)%Z -> t_err (g_std g) = true /\ t_src (g_std g) = true /\ (g_verbose g <> 3%Z -> t_pids (g_std g) = true).
Lemma loud_open t v : ~ (0 <= v <= 2)%Z -> t_err (open_std t v) = true /\ t_src (open_std t v) = true /\ (v <> 3%Z -> t_pids (open_std t v) = true).
Proof. intros H. unfold open_std. destruct (Z.eqb_spec v 0); [lia|]. destruct (Z.eqb_spec v 1); [lia|]. destruct (Z.eqb_spec v 2); [lia|]. destruct (Z.eqb_spec v 3); repeat split; auto; contradiction. Qed.
Lemma loud_init g t v : loud g -> loud (log_init g t v).
Proof.
  intros C. unfold log_init. destruct (g_target g) eqn:E; [|exact C..]. unfold loud. destruct t; cbn [open_target g_verbose g_std g_target]; try discriminate. intros _. apply loud_open.
Qed.
Lemma loud_history l g o : lsteps log0 l = Ok (g, o) -> loud g.
Proof.
  intros E. refine (history_ind (fun _ => True) (fun (_ : unit) _ => tt) (fun g _ => loud g) _ l log0 tt g o _ E); [|intros X; discriminate X]. clear. intros g _ c g' o C E1. destruct c; cbn [lstep] in E1.
  - injection E1 as <- _. apply loud_init; assumption.
  - injection E1 as <- _. exact (loud_init g t v C).
  - injection E1 as <- _. exact C.
  - injection E1 as <- _. unfold log_change_tgt. destruct (same_target _ _); [exact C|]. unfold loud. destruct t; cbn [open_target g_verbose g_std g_target]; try discriminate. intros _. apply loud_open.
  - injection E1 as <- _. exact C.
  - apply voutput_same in E1 as (_ & T & V & _ & S1 & _). unfold loud. rewrite T, V, S1. exact C.
Qed.
Lemma errno_lemma f e : (if (Z.abs e =? 0)%Z then [] else B ": " ++ f (Z.abs e) ++ B ".") = errno_part f e.
Proof. destruct e; reflexivity. Qed.
Lemma std_lemma l g o0 n q : lsteps log0 l = Ok (g, o0) -> fst (in_force l) = TStandard -> (q_level q <= threshold (snd (in_force l)))%Z \/ q_level q = 128%Z ->
  exists err pre, lsteps g [LOutput n true q] = Ok (g, [OFile err (pre ++ chain (named l ++ q_pfx q) ++ q_text q ++ errno_part (n_err n) (q_errno q) ++ ["010"%char])])
   /\ ((q_level q <= 4)%Z -> err = true)
   /\ (Forall quiet l -> pre = [] /\ (err = true -> q_level q <= 4)%Z)
   /\ (~ (0 <= snd (in_force l) <= 2)%Z -> err = true /\ exists ids,
        pre = ids ++ q_file q ++ B ":" ++ print_d (q_line q) ++ match q_func q with Some f => B ":" ++ f | None => [] end ++ ["009"%char]
        /\ (snd (in_force l) <> 3%Z -> ids = B "[" ++ print_d (fst (n_ids n)) ++ B ":" ++ print_d (snd (n_ids n)) ++ B "]:")).
Proof.
  intros E T Lv. destruct (inv_history l g o0 E) as (I1 & I2 & I3). pose proof (named_history l g o0 E) as Nm. pose proof (loud_history l g o0 E) as Lo. rewrite T in I1.
  unfold max_of in I3. rewrite I1 in I3. specialize (I3 ltac:(discriminate)).
  cbn [lsteps lstep]. unfold voutput, handle_output, target_output. rewrite I1. unfold std_output. cbn [q_level q_pfx q_text q_errno q_file q_line q_func].
  assert (C : (t_max (g_std g) <? q_level q)%Z && negb (q_level q =? LOG_PRINT)%Z = false) by (rewrite I3; unfold LOG_PRINT; destruct Lv as [Lv | ->]; [rewrite (proj2 (Z.ltb_ge _ _) Lv); reflexivity|rewrite andb_comm; reflexivity]).
  rewrite C. cbn [obind app]. rewrite errno_lemma, chain_flat.
  assert (Np : match g_prefix g with Some p => p :: q_pfx q | None => q_pfx q end = named l ++ q_pfx q) by (rewrite Nm; destruct (g_prefix g); reflexivity). rewrite Np.
  eexists _, _. split; [rewrite (app_assoc (if t_pids (g_std g) then _ else _)); reflexivity|]. unfold LOG_WARNING. split; [intros; destruct (t_err (g_std g)); [reflexivity|lia]|]. split.
  - intros F. destruct (calm_history l log0 g o0) as (_ & -> & -> & ->); [split; [cbn; lia|repeat split]|exact F|exact E|]. split; [reflexivity|lia].
  - intros V. unfold loud in Lo. rewrite I2 in Lo. destruct (Lo I1 V) as (-> & -> & Pd). split; [reflexivity|]. eexists. split; [reflexivity|]. intros N3. rewrite (Pd N3). reflexivity.
Qed.
(* The handle *)
Definition inv_h (g : log) (s : bool * target) : Prop := g_required g = fst s /\ g_target g = snd s.
Lemma init_req g t v : g_target (log_init g t v) = match g_target g with TNone => t | x => x end /\ g_required (log_init g t v) = match g_target g with TNone => false | _ => g_required g end.
Proof. unfold log_init. destruct (g_target g) eqn:E; [destruct t; split; reflexivity|rewrite E; split; reflexivity..]. Qed.
Lemma change_req g t : g_target (log_change_tgt g t) = t /\ g_required (log_change_tgt g t) = g_required g.
Proof. unfold log_change_tgt. destruct (g_target g) eqn:E, t; cbn [same_target]; rewrite ?E; split; auto. Qed.
Lemma inv_h_step g s c g' o : inv_h g s -> lstep g c = Ok (g', o) -> inv_h g' (asked s c).
Proof.
  intros (I1 & I2) E. destruct s as (r, t0). cbn [fst snd] in *. destruct c; cbn [lstep asked snd fst] in *.
  - injection E as <- _. destruct (init_req g t v) as (X1 & X2). unfold inv_h. rewrite X1, X2, I2. destruct t0; auto.
  - injection E as <- _. destruct (init_req g t v) as (X1 & X2). split; [reflexivity|]. cbn [log_init_with_handle g_target snd]. rewrite X1, I2. reflexivity.
  - injection E as <- _. split; auto.
  - injection E as <- _. destruct (change_req g t) as (X1 & X2). unfold inv_h. rewrite X1, X2. auto.
  - injection E as <- _. split; auto.
  - apply voutput_same in E as (R & T & _). unfold inv_h. rewrite R, T. auto.
Qed.
Lemma needed_history l g o : lsteps log0 l = Ok (g, o) -> g_required g = handle_needed l.
Proof. intros E. unfold handle_needed. refine (proj1 (history_ind (fun _ => True) asked inv_h inv_h_step l log0 (false, TNone) g o _ E)). split; reflexivity. Qed.
Lemma ignored_history l : forall g g' o, g_ignored g = true -> lsteps g l = Ok (g', o) -> g_ignored g' = true.
Proof.
  intros g g' o H E. refine (history_ind (fun _ => True) (fun (_ : unit) _ => tt) (fun g _ => g_ignored g = true) _ l g tt g' o H E). clear. intros g _ c g' o H E. destruct c; cbn [lstep] in E.
  - injection E as <- _. rewrite (proj2 (init_pfx g t v)). exact H.
  - injection E as <- _. cbn [log_init_with_handle g_ignored]. rewrite (proj2 (init_pfx g t v)). exact H.
  - injection E as <- _. exact H.
  - injection E as <- _. rewrite (proj2 (change_pfx g t)). exact H.
  - injection E as <- _. exact H.
  - apply voutput_same in E as (_ & _ & _ & _ & _ & _ & _ & X). auto.
Qed.
Lemma note_lemma g n q : g_required g = true -> pfx_ok g -> stack_ok n -> g_ignored g = false -> (g_target g <> TNone -> (3 <= max_of g)%Z) ->
  exists g' o, voutput g n false q = Ok (g', o) /\ g_ignored g' = true /\ (g_target g <> TNone -> o <> [])
    /\ forall q', q_file q' = q_file q -> q_line q' = q_line q -> q_func q' = q_func q -> voutput g n false q' = Ok (g', o).
Proof.
  intros R P Sn I M. destruct (handled g n (Req [] LOG_ERR 0 (q_file q) (q_line q) (q_func q) NO_HANDLE) P Sn) as (o & E & _ & _ & H); [split; [intros ? []|exact no_handle_plain]|].
  unfold voutput in *. rewrite R, I. destruct (handle_output g n _) as [o'|] eqn:HO; [|discriminate E]. cbn [obind] in E. assert (o' = o) by congruence. subst o'. cbn [obind].
  eexists _, o. split; [reflexivity|]. split; [reflexivity|]. split; [intros T; apply H; [exact T|left; apply M, T|discriminate]|]. intros q' -> -> ->. rewrite HO. reflexivity.
Qed.

(* What the code of resources gives *)
Lemma sys_history l g o0 n q : lsteps log0 l = Ok (g, o0) -> fst (in_force l) = TSyslog -> (q_level q <= threshold (snd (in_force l)))%Z -> stack_ok n ->
  (forall p, In p (named l ++ q_pfx q) -> plain p) -> 2 <= length (named l ++ q_pfx q) -> length (chain (named l ++ q_pfx q)) + length (q_text q) < LINE -> q_text q <> [] ->
  lsteps g [LOutput n true q] = Ok (g, [OSyslog (q_level q) (pfx_text (last (named l ++ q_pfx q) []))]).
Proof.
  intros E T Lv Sn Pp Two Fit Ne. destruct (inv_history l g o0 E) as (I1 & I2 & I3). pose proof (named_history l g o0 E) as Nm. rewrite T in I1. unfold max_of in I3. rewrite I1 in I3. specialize (I3 ltac:(discriminate)).
  cbn [lsteps lstep]. unfold voutput, handle_output, target_output. rewrite I1.
  assert (Np : match g_prefix g with Some p => p :: q_pfx q | None => q_pfx q end = named l ++ q_pfx q) by (rewrite Nm; destruct (g_prefix g); reflexivity). rewrite Np.
  rewrite sys_lost; cbn [q_pfx q_text q_level]; try assumption; [reflexivity|rewrite I3; exact Lv].
Qed.
Lemma reinit_lemma t v t' v' l : t <> TNone -> lsteps log0 (LInit t v :: LClose :: LInit t' v' :: l) = lsteps log0 (LInit t v :: l).
Proof.
  intros N. cbn [lsteps lstep obind]. unfold log_close. assert (E : log_init (log_init log0 t v) t' v' = log_init log0 t v) by (destruct t; [contradiction|reflexivity..]). rewrite E.
  destruct (lsteps (log_init log0 t v) l) as [(g, o)|]; reflexivity.
Qed.
Lemma jrn_errno t msg q e : jrn_output t msg (Req (q_pfx q) (q_level q) e (q_file q) (q_line q) (q_func q) (q_text q)) = jrn_output t msg q.
Proof. reflexivity. Qed.
Lemma errno_lost l g o0 n h q e : lsteps log0 l = Ok (g, o0) -> fst (in_force l) <> TStandard ->
  lsteps g [LOutput n h (Req (q_pfx q) (q_level q) e (q_file q) (q_line q) (q_func q) (q_text q))] = lsteps g [LOutput n h q].
Proof.
  intros E T. destruct (inv_history l g o0 E) as (I1 & _). cbn [lsteps lstep]. unfold voutput, handle_output, target_output. cbn [q_pfx q_level q_file q_line q_func q_text q_errno].
  destruct (g_target g); [reflexivity|congruence|reflexivity|reflexivity].
Qed.
Lemma no_handle_lemma l1 n q l2 n' q' g o : handle_needed l1 = true -> handle_needed (l1 ++ LOutput n false q :: l2) = true ->
  lsteps log0 (l1 ++ LOutput n false q :: l2) = Ok (g, o) -> lsteps log0 (l1 ++ LOutput n false q :: l2 ++ [LOutput n' false q']) = Ok (g, o).
Proof.
  intros R1 R2 E. pose proof (needed_history _ _ _ E) as Rg. rewrite R2 in Rg.
  assert (I : g_ignored g = true).
  { rewrite lsteps_app in E. destruct (lsteps log0 l1) as [(g1, o1)|] eqn:E1; [|discriminate E]. cbn [obind] in E. pose proof (needed_history _ _ _ E1) as Q. rewrite R1 in Q.
    cbn [lsteps lstep] in E. destruct (voutput g1 n false q) as [(g2, o2)|] eqn:E2; [|discriminate E]. cbn [obind] in E.
    assert (I2 : g_ignored g2 = true). { unfold voutput in E2. rewrite Q in E2. destruct (g_ignored g1) eqn:I1; [injection E2 as <- _; exact I1|]. destruct (handle_output _ _ _); [|discriminate E2]. cbn [obind] in E2. injection E2 as <- _. reflexivity. }
    destruct (lsteps g2 l2) as [(g3, o3)|] eqn:E3; [|discriminate E]. cbn [obind] in E. injection E as <- _. apply (ignored_history l2 g2 g3 o3 I2 E3). }
  change (LOutput n false q :: l2 ++ [LOutput n' false q']) with ((LOutput n false q :: l2) ++ [LOutput n' false q']). rewrite app_assoc, lsteps_app, E. cbn [obind lsteps lstep]. unfold voutput. rewrite Rg, I. cbn [obind app]. rewrite app_nil_r. reflexivity.
Qed.
Lemma first_note l g o0 n q : Forall call_ok l -> handle_needed l = true -> (forall n' q', ~ In (LOutput n' false q') l) -> fst (in_force l) <> TNone -> stack_ok n -> lsteps log0 l = Ok (g, o0) ->
  exists g' o, o <> [] /\ forall q', q_file q' = q_file q -> q_line q' = q_line q -> q_func q' = q_func q -> lsteps g [LOutput n false q'] = Ok (g', o).
Proof.
  intros F R Nn T Sn E. destruct (inv_history l g o0 E) as (I1 & I2 & I3). pose proof (needed_history _ _ _ E) as Rg. rewrite R in Rg.
  destruct (history_total l log0 Coq.Init.Logic.I F) as (g1 & o1 & E1 & P). rewrite E in E1. injection E1 as <- <-.
  assert (Ig : g_ignored g = false).
  { clear - E Nn. assert (X : forall l g g' o, g_ignored g = false -> (forall n' q', ~ In (LOutput n' false q') l) -> lsteps g l = Ok (g', o) -> g_ignored g' = false); [|apply (X l log0 g o0); auto].
    clear. induction l as [|c l IH]; intros g g' o I N E; cbn [lsteps] in E; [injection E as <- _; exact I|].
    destruct (lstep g c) as [(g1, o1)|] eqn:E1; [|discriminate E]. cbn [obind] in E. destruct (lsteps g1 l) as [(g2, o2)|] eqn:E2; [|discriminate E]. cbn [obind] in E. injection E as <- _.
    apply (IH g1 g2 o2); [|intros n' q' Q; apply (N n' q'); right; exact Q|exact E2]. destruct c; cbn [lstep] in E1.
    - injection E1 as <- _. rewrite (proj2 (init_pfx g t v)). exact I.
    - injection E1 as <- _. cbn [log_init_with_handle g_ignored]. rewrite (proj2 (init_pfx g t v)). exact I.
    - injection E1 as <- _. exact I.
    - injection E1 as <- _. rewrite (proj2 (change_pfx g t)). exact I.
    - injection E1 as <- _. exact I.
    - destruct handle; [|exfalso; apply (N n q); left; reflexivity]. unfold voutput in E1. destruct (handle_output _ _ _); [|discriminate E1]. cbn [obind] in E1. injection E1 as <- _. exact I. }
  destruct (note_lemma g n q Rg P Sn Ig) as (g' & o & V & _ & Ho & Same).
  - intros T'. rewrite I3 by exact T'. unfold threshold. destruct (snd (in_force l)) as [|[]|]; lia.
  - exists g', o. split; [apply Ho; rewrite I1; exact T|]. intros q' Q1 Q2 Q3. cbn [lsteps lstep]. rewrite (Same q' Q1 Q2 Q3). cbn [obind]. rewrite app_nil_r. reflexivity.
Qed.
