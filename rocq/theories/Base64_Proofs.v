From Verif Require Import Base Base64_Model Base64_Spec.
Local Open Scope N_scope.
Ltac Zify.zify_post_hook ::= Z.div_mod_to_equations.

(* finite sweeps *)
Definition range (n : nat) : list N := map N.of_nat (seq 0 n).
Lemma in_range n x : x < N.of_nat n -> In x (range n).
Proof. intros H. unfold range. apply in_map_iff. exists (N.to_nat x). split; [lia|]. apply in_seq. lia. Qed.

Lemma sweep1 n (P : N -> bool) : forallb P (range n) = true -> forall x, x < N.of_nat n -> P x = true.
Proof. intros H x Hx. rewrite forallb_forall in H. apply H, in_range, Hx. Qed.
Lemma sweep2 n m (P : N -> N -> bool) :
  forallb (fun x => forallb (P x) (range m)) (range n) = true ->
  forall x y, x < N.of_nat n -> y < N.of_nat m -> P x y = true.
Proof.
  intros H x y Hx Hy. rewrite forallb_forall in H. specialize (H x (in_range _ _ Hx)).
  rewrite forallb_forall in H. apply H, in_range, Hy.
Qed.
Lemma sweep3 n m k (P : N -> N -> N -> bool) :
  forallb (fun x => forallb (fun y => forallb (P x y) (range k)) (range m)) (range n) = true ->
  forall x y z, x < N.of_nat n -> y < N.of_nat m -> z < N.of_nat k -> P x y z = true.
Proof.
  intros H x y z Hx Hy Hz. rewrite forallb_forall in H. specialize (H x (in_range _ _ Hx)).
  rewrite forallb_forall in H. specialize (H y (in_range _ _ Hy)).
  rewrite forallb_forall in H. apply H, in_range, Hz.
Qed.

Lemma byteN_lt c : byteN c < 256.
Proof. apply N_ascii_bounded. Qed.

Lemma tbl_sweep i : i < 64 -> dtable (tbl i) = i /\ Ascii.eqb (tbl i) "=" = false /\ is_b64_digit (tbl i) = true.
Proof.
  intros H.
  assert (S : (dtable (tbl i) =? i) && negb (Ascii.eqb (tbl i) "=") && is_b64_digit (tbl i) = true).
  { apply (sweep1 64 (fun i => (dtable (tbl i) =? i) && negb (Ascii.eqb (tbl i) "=") && is_b64_digit (tbl i)));
    [vm_compute; reflexivity| exact H]. }
  apply andb_prop in S as [S S3]. apply andb_prop in S as [S1 S2].
  repeat split; auto.
  - apply N.eqb_eq; auto.
  - apply negb_true_iff; auto.
Qed.

Lemma all_bytes (P : byte -> bool) :
  forallb (fun i => P (ascii_of_N i)) (range 256) = true -> forall c, P c = true.
Proof.
  intros H c. rewrite <- (ascii_N_embedding c).
  apply (sweep1 256 (fun i => P (ascii_of_N i)) H). apply byteN_lt.
Qed.

Lemma dtable_char c : negb (dtable c =? 128) = is_b64_char c.
Proof.
  assert (H : Bool.eqb (negb (dtable c =? 128)) (is_b64_char c) = true).
  { apply (all_bytes (fun c => Bool.eqb (negb (dtable c =? 128)) (is_b64_char c))). vm_compute. reflexivity. }
  apply Bool.eqb_prop in H. exact H.
Qed.

(* index bounds of the encoder *)
Lemma idx0 a : a < 256 -> N.shiftr a 2 < 64.
Proof. intros. rewrite N.shiftr_div_pow2. change (2^2) with 4. lia. Qed.
Lemma idx1 a b : a < 256 -> b < 256 -> N.lor (N.shiftl (N.land a 3) 4) (N.shiftr b 4) < 64.
Proof.
  intros Ha Hb. apply N.ltb_lt.
  apply (sweep2 256 256 (fun a b => N.lor (N.shiftl (N.land a 3) 4) (N.shiftr b 4) <? 64));
  [vm_compute; reflexivity | exact Ha | exact Hb].
Qed.
Lemma idx2 b c : b < 256 -> c < 256 -> N.lor (N.shiftl (N.land b 15) 2) (N.shiftr c 6) < 64.
Proof.
  intros Ha Hb. apply N.ltb_lt.
  apply (sweep2 256 256 (fun b c => N.lor (N.shiftl (N.land b 15) 2) (N.shiftr c 6) <? 64));
  [vm_compute; reflexivity | exact Ha | exact Hb].
Qed.
Lemma idx3 c : c < 256 -> N.land c 63 < 64.
Proof. intros. change 63 with (N.ones 6). rewrite N.land_ones. change (2^6) with 64. lia. Qed.
Lemma idx1e a : a < 256 -> N.shiftl (N.land a 3) 4 < 64.
Proof. intros H. pose proof (idx1 a 0 H ltac:(lia)) as X. change (N.shiftr 0 4) with 0 in X. rewrite N.lor_0_r in X. exact X. Qed.
Lemma idx2e b : b < 256 -> N.shiftl (N.land b 15) 2 < 64.
Proof. intros H. pose proof (idx2 b 0 H ltac:(lia)) as X. change (N.shiftr 0 6) with 0 in X. rewrite N.lor_0_r in X. exact X. Qed.

(* decoding arithmetic *)
Lemma dec0 a b : a < 256 -> b < 256 ->
  N.lor (N.shiftl (N.shiftr a 2) 2) (N.shiftr (N.lor (N.shiftl (N.land a 3) 4) (N.shiftr b 4)) 4) mod 256 = a.
Proof.
  intros Ha Hb. apply N.eqb_eq.
  apply (sweep2 256 256 (fun a b => N.lor (N.shiftl (N.shiftr a 2) 2) (N.shiftr (N.lor (N.shiftl (N.land a 3) 4) (N.shiftr b 4)) 4) mod 256 =? a));
  [vm_compute; reflexivity | exact Ha | exact Hb].
Qed.
Lemma dec1 al b ch : al < 4 -> b < 256 -> ch < 4 ->
  N.lor (N.shiftl (N.lor (N.shiftl al 4) (N.shiftr b 4)) 4) (N.shiftr (N.lor (N.shiftl (N.land b 15) 2) ch) 2) mod 256 = b.
Proof.
  intros Ha Hb Hc. apply N.eqb_eq.
  apply (sweep3 4 256 4 (fun al b ch => N.lor (N.shiftl (N.lor (N.shiftl al 4) (N.shiftr b 4)) 4) (N.shiftr (N.lor (N.shiftl (N.land b 15) 2) ch) 2) mod 256 =? b));
  [vm_compute; reflexivity | exact Ha | exact Hb | exact Hc].
Qed.
Lemma dec2 b c : b < 256 -> c < 256 ->
  N.lor (N.shiftl (N.lor (N.shiftl (N.land b 15) 2) (N.shiftr c 6)) 6) (N.land c 63) mod 256 = c.
Proof.
  intros Hb Hc. apply N.eqb_eq.
  apply (sweep2 256 256 (fun b c => N.lor (N.shiftl (N.lor (N.shiftl (N.land b 15) 2) (N.shiftr c 6)) 6) (N.land c 63) mod 256 =? c));
  [vm_compute; reflexivity | exact Hb | exact Hc].
Qed.
Lemma land3_lt a : N.land a 3 < 4.
Proof. change 3 with (N.ones 2). rewrite N.land_ones. change (2^2) with 4. lia. Qed.
Lemma shr6_lt a : a < 256 -> N.shiftr a 6 < 4.
Proof. intros. rewrite N.shiftr_div_pow2. change (2^6) with 64. lia. Qed.

Lemma low8_eq x c : x mod 256 = byteN c -> low8 x = c.
Proof. intros H. unfold low8. rewrite H. apply ascii_N_embedding. Qed.

(* induction in steps of three *)
Lemma list_ind3 {A} (P : list A -> Prop) :
  P [] -> (forall a, P [a]) -> (forall a b, P [a; b]) -> (forall a b c t, P t -> P (a :: b :: c :: t)) -> forall l, P l.
Proof.
  intros H0 H1 H2 H3 l.
  assert (X : forall n l, (List.length l <= n)%nat -> P l).
  { induction n as [|n IH]; intros l' Hl.
    - destruct l'; simpl in Hl; [auto|lia].
    - destruct l' as [|a [|b [|c t]]]; auto. apply H3, IH. simpl in Hl. lia. }
  apply (X (List.length l)). auto.
Qed.

Lemma enc_length s : N.of_nat (List.length (enc_loop s)) = b64_len (N.of_nat (List.length s)).
Proof.
  unfold b64_len. induction s as [|a|a b|a b c t IH] using list_ind3; try reflexivity.
  cbn [enc_loop List.length]. lia.
Qed.

(* the encoded text: everything but the final NUL *)
Definition text (s : bytes) : bytes := removelast (enc_loop s).

Lemma enc_nonempty s : enc_loop s <> [].
Proof. destruct s as [|a [|b [|c t]]]; discriminate. Qed.

Lemma enc_shape s : enc_loop s = text s ++ [NUL].
Proof.
  unfold text. induction s as [|a|a b|a b c t IH] using list_ind3; try reflexivity.
  cbn [enc_loop]. rewrite IH at 1.
  assert (X : forall (x : byte) (l : bytes), l <> [] -> removelast (x :: l) = x :: removelast l)
    by (intros x [|? ?]; [congruence|reflexivity]).
  rewrite !X; try discriminate; try apply enc_nonempty. reflexivity.
Qed.

Lemma text_cons a b c t :
  text (a :: b :: c :: t) = firstn 4 (enc_loop (a :: b :: c :: t)) ++ text t.
Proof.
  apply (app_inv_tail [NUL]). rewrite <- enc_shape, <- app_assoc, <- enc_shape. reflexivity.
Qed.

Lemma text_chars s : forallb is_b64_char (text s) = true.
Proof.
  induction s as [|a|a b|a b c t IH] using list_ind3; [reflexivity| | |].
  - unfold text. cbn [enc_loop removelast forallb]. unfold is_b64_char.
    rewrite (proj2 (proj2 (tbl_sweep _ (idx0 _ (byteN_lt a))))), (proj2 (proj2 (tbl_sweep _ (idx1e _ (byteN_lt a))))).
    reflexivity.
  - unfold text. cbn [enc_loop removelast forallb]. unfold is_b64_char.
    rewrite (proj2 (proj2 (tbl_sweep _ (idx0 _ (byteN_lt a))))).
    rewrite (proj2 (proj2 (tbl_sweep _ (idx1 _ _ (byteN_lt a) (byteN_lt b))))).
    rewrite (proj2 (proj2 (tbl_sweep _ (idx2e _ (byteN_lt b))))). reflexivity.
  - rewrite text_cons, forallb_app, IH. cbn [enc_loop firstn forallb]. unfold is_b64_char.
    rewrite (proj2 (proj2 (tbl_sweep _ (idx0 _ (byteN_lt a))))).
    rewrite (proj2 (proj2 (tbl_sweep _ (idx1 _ _ (byteN_lt a) (byteN_lt b))))).
    rewrite (proj2 (proj2 (tbl_sweep _ (idx2 _ _ (byteN_lt b) (byteN_lt c))))).
    rewrite (proj2 (proj2 (tbl_sweep _ (idx3 _ (byteN_lt c))))). reflexivity.
Qed.

Lemma text_length s : N.of_nat (List.length (text s)) = 4 * ((N.of_nat (List.length s) + 2) / 3).
Proof.
  pose proof (enc_length s) as H. rewrite enc_shape, app_length in H. unfold b64_len in H. cbn [List.length] in H. lia.
Qed.

Lemma filter_all_true {A} (f : A -> bool) l : forallb f l = true -> filter f l = l.
Proof. induction l; simpl; auto. intros H. apply andb_prop in H as [H1 H2]. rewrite H1. f_equal; auto. Qed.

Lemma dec_count_chars s : dec_count s = N.of_nat (List.length (List.filter is_b64_char s)).
Proof. unfold dec_count. f_equal. f_equal. apply filter_ext. apply dtable_char. Qed.

Lemma dec_count_text s : dec_count (text s) = 4 * ((N.of_nat (List.length s) + 2) / 3).
Proof. rewrite dec_count_chars, (filter_all_true _ _ (text_chars s)). apply text_length. Qed.

Lemma push_ok olen out b : N.of_nat (List.length out) < olen -> push olen out b = Ok (out ++ [b]).
Proof. intros H. unfold push. destruct (N.ltb_spec (N.of_nat (List.length out)) olen); [auto|lia]. Qed.

(* one block of four characters *)
Lemma dec_block olen c0 c1 c2 c3 t out :
  dtable c0 <> 128 -> dtable c1 <> 128 -> dtable c2 <> 128 -> dtable c3 <> 128 ->
  N.of_nat (List.length out) + 3 <= olen ->
  let pad := List.length (List.filter (Ascii.eqb "=") [c0; c1; c2; c3]) in
  let x := low8 (N.lor (N.shiftl (dtable c0) 2) (N.shiftr (dtable c1) 4)) in
  let y := low8 (N.lor (N.shiftl (dtable c1) 4) (N.shiftr (dtable c2) 2)) in
  let z := low8 (N.lor (N.shiftl (dtable c2) 6) (dtable c3)) in
  dec_loop olen (c0 :: c1 :: c2 :: c3 :: t) [] 0 out =
  match pad with
  | O => dec_loop olen t [] 0 (out ++ [x; y; z])
  | 1%nat => Ok (Some (out ++ [x; y]))
  | 2%nat => Ok (Some (out ++ [x]))
  | _ => Ok None
  end.
Proof.
  intros H0 H1 H2 H3 Hlen pad x y z.
  apply N.eqb_neq in H0, H1, H2, H3.
  cbn [dec_loop app]. rewrite H0, H1, H2, H3.
  rewrite push_ok by lia. cbn [obind].
  rewrite push_ok by (rewrite app_length; simpl; lia). cbn [obind].
  rewrite push_ok by (rewrite !app_length; simpl; lia). cbn [obind].
  fold x y z. rewrite <- !app_assoc. cbn [app].
  assert (L : List.length (out ++ [x; y; z]) = (List.length out + 3)%nat) by (rewrite app_length; reflexivity).
  rewrite L.
  replace (List.length out + 3 - 1)%nat with (List.length out + 2)%nat by lia.
  replace (List.length out + 3 - 2)%nat with (List.length out + 1)%nat by lia.
  rewrite !firstn_app_2.
  unfold pad. cbn [List.filter].
  rewrite !(Ascii.eqb_sym "=").
  destruct (Ascii.eqb c0 "="), (Ascii.eqb c1 "="), (Ascii.eqb c2 "="), (Ascii.eqb c3 "=");
        reflexivity.
Qed.

Lemma dt128 i : i < 64 -> dtable (tbl i) <> 128.
Proof. intros H. rewrite (proj1 (tbl_sweep i H)). lia. Qed.

Lemma dec_text olen s : forall out,
  N.of_nat (List.length out) + (N.of_nat (List.length s) + 2) / 3 * 3 <= olen ->
  dec_loop olen (text s) [] 0 out = Ok (Some (out ++ s)).
Proof.
  induction s as [|a|a b|a b c t IH] using list_ind3; intros out Hlen.
  - simpl. rewrite app_nil_r. reflexivity.
  - pose proof (byteN_lt a) as Ha.
    pose proof (tbl_sweep _ (idx0 _ Ha)) as (D0 & P0 & _).
    pose proof (tbl_sweep _ (idx1e _ Ha)) as (D1 & P1 & _).
    unfold text. cbn [enc_loop removelast].
    rewrite dec_block; try (apply dt128; auto using idx0, idx1e); try discriminate.
    2:{ cbn [List.length] in Hlen. lia. }
    cbn [List.filter]. rewrite !(Ascii.eqb_sym "="), P0, P1. cbn [List.length Ascii.eqb Bool.eqb andb].
    rewrite D0, D1. f_equal. f_equal. f_equal. f_equal. apply low8_eq.
    pose proof (dec0 (byteN a) 0 Ha ltac:(lia)) as X. change (N.shiftr 0 4) with 0 in X. rewrite N.lor_0_r in X. exact X.
  - pose proof (byteN_lt a) as Ha. pose proof (byteN_lt b) as Hb.
    pose proof (tbl_sweep _ (idx0 _ Ha)) as (D0 & P0 & _).
    pose proof (tbl_sweep _ (idx1 _ _ Ha Hb)) as (D1 & P1 & _).
    pose proof (tbl_sweep _ (idx2e _ Hb)) as (D2 & P2 & _).
    unfold text. cbn [enc_loop removelast].
    rewrite dec_block; try (apply dt128; auto using idx0, idx1, idx2e); try discriminate.
    2:{ cbn [List.length] in Hlen. lia. }
    cbn [List.filter]. rewrite !(Ascii.eqb_sym "="), P0, P1, P2. cbn [List.length Ascii.eqb Bool.eqb andb].
    rewrite D0, D1, D2. f_equal. f_equal. f_equal. f_equal; [|f_equal].
    + apply low8_eq, dec0; auto.
    + apply low8_eq.
      pose proof (dec1 (N.land (byteN a) 3) (byteN b) 0 (land3_lt _) Hb ltac:(lia)) as X. rewrite N.lor_0_r in X. exact X.
  - pose proof (byteN_lt a) as Ha. pose proof (byteN_lt b) as Hb. pose proof (byteN_lt c) as Hc.
    pose proof (tbl_sweep _ (idx0 _ Ha)) as (D0 & P0 & _).
    pose proof (tbl_sweep _ (idx1 _ _ Ha Hb)) as (D1 & P1 & _).
    pose proof (tbl_sweep _ (idx2 _ _ Hb Hc)) as (D2 & P2 & _).
    pose proof (tbl_sweep _ (idx3 _ Hc)) as (D3 & P3 & _).
    cbn [List.length] in Hlen.
    rewrite text_cons. cbn [enc_loop firstn app].
    rewrite dec_block; try (apply dt128; auto using idx0, idx1, idx2, idx3).
    2:{ lia. }
    cbn [List.filter]. rewrite !(Ascii.eqb_sym "="), P0, P1, P2, P3. cbn [List.length].
    rewrite D0, D1, D2, D3.
    rewrite (low8_eq _ a) by (apply dec0; auto).
    rewrite (low8_eq _ b) by (apply dec1; auto using land3_lt, shr6_lt).
    rewrite (low8_eq _ c) by (apply dec2; auto).
    rewrite IH by (rewrite app_length; cbn [List.length]; lia).
    rewrite <- app_assoc. reflexivity.
Qed.

Lemma decode_text s : s <> [] -> base64_decode (text s) = Ok (Some s).
Proof.
  intros Hs. unfold base64_decode. rewrite dec_count_text.
  assert (0 < N.of_nat (List.length s)) by (destruct s; [congruence|cbn [List.length]; lia]).
  destruct (N.eqb_spec (4 * ((N.of_nat (List.length s) + 2) / 3)) 0); [lia|].
  replace (4 * ((N.of_nat (List.length s) + 2) / 3) mod 4) with 0 by lia.
  cbn [orb negb N.eqb]. rewrite dec_text; [reflexivity|]. cbn [List.length]. change (N.of_nat 0) with 0. lia.
Qed.

(* characters outside the alphabet are ignored by the decoder *)
Lemma dec_loop_filter olen src : forall block pad out,
  dec_loop olen src block pad out = dec_loop olen (List.filter is_b64_char src) block pad out.
Proof.
  induction src as [|c t IH]; intros block pad out; [reflexivity|].
  cbn [List.filter]. rewrite <- dtable_char. destruct (dtable c =? 128) eqn:E; cbn [negb].
  - cbn [dec_loop]. rewrite E. apply IH.
  - cbn [dec_loop]. rewrite E.
    destruct block as [|b0 [|b1 [|b2 [|b3 l]]]]; try apply IH.
    destruct (push olen out _) as [o1|]; cbn [obind]; [|reflexivity].
    destruct (push olen o1 _) as [o2|]; cbn [obind]; [|reflexivity].
    destruct (push olen o2 _) as [o3|]; cbn [obind]; [|reflexivity].
    rewrite IH. reflexivity.
Qed.

Lemma filter_idem {A} (f : A -> bool) l : filter f (filter f l) = filter f l.
Proof. induction l as [|h t IH]; simpl; auto. destruct (f h) eqn:E; simpl; rewrite ?E, IH; auto. Qed.

Lemma decode_filter src : base64_decode src = base64_decode (List.filter is_b64_char src).
Proof.
  unfold base64_decode. rewrite !dec_count_chars, filter_idem, dec_loop_filter. reflexivity.
Qed.

Lemma list_ind4 {A} (P : list A -> Prop) :
  (forall l, (List.length l < 4)%nat -> P l) -> (forall a b c d t, P t -> P (a :: b :: c :: d :: t)) -> forall l, P l.
Proof.
  intros H0 H4 l.
  assert (X : forall n l, (List.length l <= n)%nat -> P l).
  { induction n as [|n IH]; intros l' Hl.
    - apply H0. lia.
    - destruct l' as [|a [|b [|c [|d t]]]]; try (apply H0; simpl; lia). apply H4, IH. simpl in Hl. lia. }
  apply (X (List.length l)). auto.
Qed.

Lemma dec_chars olen cs : forall out,
  forallb is_b64_char cs = true -> (List.length cs mod 4 = 0)%nat ->
  N.of_nat (List.length out) + N.of_nat (List.length cs) / 4 * 3 <= olen ->
  if bad_padding cs then dec_loop olen cs [] 0 out = Ok None
  else exists o, dec_loop olen cs [] 0 out = Ok (Some o) /\
       N.of_nat (List.length o) <= N.of_nat (List.length out) + N.of_nat (List.length cs) / 4 * 3.
Proof.
  induction cs as [l Hl|c0 c1 c2 c3 t IH] using list_ind4; intros out Hc Hm Hlen.
  - destruct l as [|? l]; [|exfalso; cbn [List.length] in *; lia].
    simpl. exists out. split; [auto|lia].
  - cbn [forallb] in Hc. rewrite !andb_true_iff in Hc. destruct Hc as (C0 & C1 & C2 & C3 & Ct).
    rewrite <- dtable_char in C0, C1, C2, C3. apply negb_true_iff, N.eqb_neq in C0, C1, C2, C3.
    cbn [List.length] in Hm, Hlen.
    rewrite (dec_block olen c0 c1 c2 c3 t out C0 C1 C2 C3 ltac:(lia)).
    cbn [bad_padding]. cbn [List.length].
    destruct (List.length (List.filter (Ascii.eqb "=") [c0; c1; c2; c3])) as [|[|[|k]]] eqn:E.
    + set (o := _ ++ _).
      assert (Lo : List.length o = (List.length out + 3)%nat) by (unfold o; rewrite app_length; reflexivity).
      specialize (IH o Ct ltac:(lia) ltac:(lia)). destruct (bad_padding t); auto.
      destruct IH as (o' & E' & L'). exists o'. split; auto. lia.
    + eexists; split; [reflexivity|]. rewrite app_length; simpl; lia.
    + eexists; split; [reflexivity|]. rewrite app_length; simpl; lia.
    + reflexivity.
Qed.

Lemma decode_total_lemma src :
  let cs := List.filter is_b64_char src in
  let n := N.of_nat (List.length cs) in
  if (n =? 0) || negb (n mod 4 =? 0) || bad_padding cs
  then base64_decode src = Ok None
  else exists out, base64_decode src = Ok (Some out) /\ N.of_nat (List.length out) <= n / 4 * 3.
Proof.
  intros cs n. rewrite decode_filter. fold cs. unfold base64_decode.
  rewrite dec_count_chars. unfold cs. rewrite filter_idem. fold cs. fold n.
  destruct ((n =? 0) || negb (n mod 4 =? 0)) eqn:E; [reflexivity|].
  cbn [orb]. apply orb_false_iff in E as [E1 E2]. apply negb_false_iff, N.eqb_eq in E2.
  pose proof (dec_chars (n / 4 * 3) cs []) as H.
  assert (Hf : forallb is_b64_char cs = true)
    by (apply forallb_forall; intros x Hx; apply filter_In in Hx; tauto).
  specialize (H Hf ltac:(unfold n in E2; lia) ltac:(simpl; lia)).
  destruct (bad_padding cs); auto.
Qed.

Lemma encoded_len_lemma n :
  n < 2 ^ 64 -> encoded_len n = if b64_len n <? 2 ^ 64 then b64_len n else 0.
Proof.
  intros H. unfold encoded_len, b64_len, wrap64. change (2 ^ 64) with 18446744073709551616 in *.
  destruct (N.eqb_spec n 0) as [->|Hn]; [reflexivity|].
  destruct (N.ltb_spec (4 * ((n + 2) / 3) + 1) 18446744073709551616) as [Hs|Hs].
  - replace ((1 + ((n - 1) / 3 + 1) * 4) mod 18446744073709551616) with (4 * ((n + 2) / 3) + 1).
    + destruct (N.ltb_spec (4 * ((n + 2) / 3) + 1) n); lia.
    + rewrite N.mod_small; lia.
  - destruct (N.ltb_spec ((1 + ((n - 1) / 3 + 1) * 4) mod 18446744073709551616) n); [reflexivity|].
    exfalso. lia.
Qed.

Lemma encode_ok_lemma s d :
  N.of_nat (List.length s) < 2 ^ 64 -> b64_len (N.of_nat (List.length s)) < 2 ^ 64 ->
  b64_len (N.of_nat (List.length s)) <= N.of_nat (List.length d) ->
  base64_encode (Some s) (N.of_nat (List.length s)) (Some d) =
    Ok (Some (text s ++ NUL :: skipn (S (List.length (text s))) d), 0%Z).
Proof.
  intros H1 H2 H3. unfold base64_encode. rewrite encoded_len_lemma by auto.
  destruct (N.ltb_spec (b64_len (N.of_nat (List.length s))) (2 ^ 64)); [|lia].
  destruct (N.eqb_spec (b64_len (N.of_nat (List.length s))) 0) as [E|_]; [unfold b64_len in E; lia|].
  destruct (N.ltb_spec (N.of_nat (List.length d)) (b64_len (N.of_nat (List.length s)))); [lia|].
  cbn [orb]. rewrite Nnat.Nat2N.id, firstn_all.
  pose proof (enc_length s) as L.
  destruct (Nat.ltb_spec (List.length s) (List.length s)); [lia|].
  destruct (Nat.ltb_spec (List.length d) (List.length (enc_loop s))); [lia|].
  cbn [orb]. rewrite enc_shape, app_length, Nat.add_1_r, <- app_assoc. reflexivity.
Qed.

Lemma encode_refused_lemma s n d :
  n < 2 ^ 64 -> (2 ^ 64 <= b64_len n \/ N.of_nat (List.length d) < b64_len n) ->
  base64_encode s n (Some d) = Ok (Some d, (- EINVAL)%Z).
Proof.
  intros Hn H. unfold base64_encode. rewrite encoded_len_lemma by auto.
  destruct (N.ltb_spec (b64_len n) (2 ^ 64)).
  - destruct H as [H|H]; [lia|].
    destruct (N.ltb_spec (N.of_nat (List.length d)) (b64_len n)); [|lia].
    rewrite !orb_true_r. destruct s; reflexivity.
  - cbn [N.eqb]. rewrite !orb_true_r. destruct s; reflexivity.
Qed.

Lemma encode_roundtrip_lemma s d :
  s <> [] -> N.of_nat (List.length s) < 2 ^ 64 -> b64_len (N.of_nat (List.length s)) < 2 ^ 64 ->
  N.of_nat (List.length d) = encoded_len (N.of_nat (List.length s)) ->
  exists txt, base64_encode (Some s) (N.of_nat (List.length s)) (Some d) = Ok (Some (txt ++ [NUL]), 0%Z) /\
    List.length (txt ++ [NUL]) = List.length d /\
    forallb is_b64_char txt = true /\
    base64_decode txt = Ok (Some s) /\ base64_decode (txt ++ [NUL]) = Ok (Some s).
Proof.
  intros Hs H1 H2 Hd. rewrite encoded_len_lemma in Hd by auto.
  destruct (N.ltb_spec (b64_len (N.of_nat (List.length s))) (2 ^ 64)); [|lia].
  exists (text s). pose proof (enc_length s) as L. rewrite enc_shape in L.
  assert (L' : List.length (text s ++ [NUL]) = List.length d) by lia.
  rewrite encode_ok_lemma by lia.
  rewrite skipn_all2 by (rewrite app_length in L'; simpl in L'; lia).
  repeat split; auto using text_chars, decode_text.
  rewrite decode_filter, filter_app. change (filter is_b64_char [NUL]) with (@nil ascii). rewrite app_nil_r.
  rewrite <- decode_filter. apply decode_text; auto.
Qed.

Lemma encode_rest_lemma s d :
  N.of_nat (List.length s) < 2 ^ 64 -> b64_len (N.of_nat (List.length s)) < 2 ^ 64 ->
  b64_len (N.of_nat (List.length s)) <= N.of_nat (List.length d) ->
  exists txt, N.of_nat (List.length txt) + 1 = b64_len (N.of_nat (List.length s)) /\
    forallb is_b64_char txt = true /\
    base64_encode (Some s) (N.of_nat (List.length s)) (Some d) =
      Ok (Some (txt ++ NUL :: skipn (S (List.length txt)) d), 0%Z).
Proof.
  intros H1 H2 H3. exists (text s). split; [|split; [apply text_chars|apply encode_ok_lemma; auto]].
  rewrite text_length. reflexivity.
Qed.
