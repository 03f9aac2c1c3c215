From Coq Require Import DecimalFacts DecimalPos DecimalN DecimalZ.
From Verif Require Import Base UtilStr_Model UtilStr_Spec UtilStr_Proofs2 Base64_Model Base64_Spec Base64_Proofs Fmt_Model Json_Spec Fmt_Spec.
Local Open Scope nat_scope.

Definition ws (s : bytes) : Prop := forall c, In c s -> is_ws c = true.
Definition not_ws (s : bytes) : Prop := match s with [] => True | c :: _ => is_ws c = false end.
Lemma skip_ws w s : ws w -> not_ws s -> skip (w ++ s) = s.
Proof.
  intros W N. induction w as [|c w IH]; cbn [app skip].
  - destruct s as [|c s]; [reflexivity|]. cbn in N. cbn [skip]. rewrite N. reflexivity.
  - rewrite (W c) by (left; reflexivity). apply IH. intros x Hx. apply W. right. exact Hx.
Qed.
Lemma ws_app a b : ws a -> ws b -> ws (a ++ b). Proof. intros A Bb c I. apply in_app_or in I as [I|I]; auto. Qed.
Lemma ws_indent l : ws (indent l).
Proof. induction l as [|l IH]; intros c I; [destruct I|]. cbn [indent] in I. apply in_app_or in I as [I|I]; [|exact (IH c I)]. destruct I as [<-|[<-|[<-|[<-|[]]]]]; reflexivity. Qed.
Lemma ws_lf s : ws s -> ws (LF :: s). Proof. intros W c [<-|I]; [reflexivity|exact (W c I)]. Qed.
Lemma ws_nil : ws []. Proof. intros c []. Qed.

(* strings *)
Lemma str_end_plain x r : plain x -> str_end (x ++ QUOTE :: r) = Some (x, r).
Proof.
  induction x as [|c x IH]; intros P; [reflexivity|]. assert (Pc : plain_byte c = true) by (apply P; left; reflexivity). unfold plain_byte in Pc.
  apply andb_true_iff in Pc as [Pc P3]. apply andb_true_iff in Pc as [P1 P2]. apply negb_true_iff in P1, P2, P3.
  cbn [app str_end]. rewrite P1, P2, P3, IH; [reflexivity|]. intros y Hy. apply P. right. exact Hy.
Qed.
(* numbers *)
Definition num_ok (r : bytes) : Prop := match r with [] => True | c :: _ => is_digit c = false /\ is_char "." c = false /\ is_char "eE" c = false end.
Lemma digits_all d r : (forall c, In c d -> is_digit c = true) -> num_ok r -> digits (d ++ r) = (d, r).
Proof.
  intros D N. induction d as [|c d IH]; cbn [app digits].
  - destruct r as [|c r]; [reflexivity|]. cbn [digits]. destruct N as [-> _]. reflexivity.
  - rewrite (D c) by (left; reflexivity). rewrite IH; [reflexivity|]. intros x Hx. apply D. right. exact Hx.
Qed.
Lemma uint_is_digit d c : In c (uint_chars d) -> is_digit c = true.
Proof. intros I. apply uint_digits in I. unfold digit, nat_of_ascii in I. unfold is_digit, byteN. apply andb_true_iff. split; apply N.leb_le; lia. Qed.
Lemma no_zero p d : Pos.to_uint p <> Decimal.D0 d.
Proof.
  intros E. pose proof (DecimalPos.Unsigned.of_to p) as O. pose proof (DecimalPos.Unsigned.to_of (Pos.to_uint p)) as T. rewrite O in T. cbn [N.to_uint] in T. rewrite E in T.
  unfold Decimal.unorm in T. cbn [Decimal.nzhead] in T. destruct (Decimal.nzhead d) eqn:Z; try discriminate T.
  - injection T as ->. rewrite E in O. discriminate O.
  - exact (nzhead_nonzero d u Z).
Qed.
Lemma uint_chars_zero d c l : uint_chars d = c :: l -> is_char "0" c = true -> exists d', d = Decimal.D0 d'.
Proof. destruct d; cbn [uint_chars]; intros E Z; try discriminate E; injection E as <- <-; try discriminate Z. eauto. Qed.
Lemma number_digits neg d r : uint_chars d <> [] -> (forall d', d = Decimal.D0 d' -> d' = Decimal.Nil) -> num_ok r ->
  number ((if neg : bool then B "-" else []) ++ uint_chars d ++ r) = Some (JInt (if neg then - Z.of_N (decimal_value (uint_chars d)) else Z.of_N (decimal_value (uint_chars d))), r).
Proof.
  intros Nn Nz N. unfold number.
  assert (X : match (if neg then B "-" else []) ++ uint_chars d ++ r with c :: t => if is_char "-" c then (true, t) else (false, (if neg then B "-" else []) ++ uint_chars d ++ r) | [] => (false, (if neg then B "-" else []) ++ uint_chars d ++ r) end = (neg, uint_chars d ++ r)).
  { destruct neg; [reflexivity|]. cbn [app]. destruct (uint_chars d) as [|c l] eqn:E; [contradiction|]. cbn [app]. assert (I : In c (uint_chars d)) by (rewrite E; left; reflexivity). apply uint_is_digit in I.
    destruct (is_char "-" c) eqn:M; [|reflexivity]. unfold is_char in M. cbn in M. rewrite orb_false_r in M. apply Ascii.eqb_eq in M. subst c. discriminate I. }
  rewrite X. clear X. rewrite (digits_all _ r (fun c => uint_is_digit d c) N).
  destruct (uint_chars d) as [|c l] eqn:E; [contradiction|].
  destruct (is_char "0" c) eqn:Z0.
  - destruct (uint_chars_zero d c l E Z0) as (d' & ->). rewrite (Nz d' eq_refl) in E. cbn in E. injection E as <- <-. cbn [length Nat.eqb negb andb].
    destruct r as [|c r]; [reflexivity|]. destruct N as (_ & N1 & N2). cbn [fraction]. rewrite N1. cbn [exponent]. rewrite N2. reflexivity.
  - cbn [andb]. destruct r as [|x r]; [reflexivity|]. destruct N as (_ & N1 & N2). cbn [fraction]. rewrite N1. cbn [exponent]. rewrite N2. reflexivity.
Qed.
Lemma decimal_uint d : decimal_value (uint_chars d) = Pos.of_uint d.
Proof. rewrite <- uint_value. reflexivity. Qed.
Lemma uint_pos_some p : uint_chars (Pos.to_uint p) <> [].
Proof. destruct (Pos.to_uint p) eqn:E; try discriminate. pose proof (DecimalPos.Unsigned.of_to p) as O. rewrite E in O. discriminate O. Qed.
Lemma number_print z r : num_ok r -> number (print_d z ++ r) = Some (JInt z, r).
Proof.
  intros N. unfold print_d. destruct z as [|p|p]; cbn [Z.to_int].
  - pose proof (number_digits false (Decimal.D0 Decimal.Nil) r) as X. cbn [app] in X. cbv iota in X. rewrite X; [reflexivity|discriminate|congruence|exact N].
  - pose proof (number_digits false (Pos.to_uint p) r) as X. cbn [app] in X. rewrite X; [|apply uint_pos_some|intros d' E; elim (no_zero p d' E)|exact N].
    rewrite decimal_uint, DecimalPos.Unsigned.of_to. reflexivity.
  - pose proof (number_digits true (Pos.to_uint p) r) as X. cbn [app B list_ascii_of_string] in X |- *. rewrite X; [|apply uint_pos_some|intros d' E; elim (no_zero p d' E)|exact N].
    rewrite decimal_uint, DecimalPos.Unsigned.of_to. reflexivity.
Qed.
Lemma print_u_d v : print_u v = print_d (Z.of_N v).
Proof. destruct v; reflexivity. Qed.
Lemma print_head z : exists c l, print_d z = c :: l /\ (is_digit c = true \/ c = "-"%char).
Proof.
  unfold print_d. destruct z as [|p|p]; cbn [Z.to_int]; [eexists _, _; split; [reflexivity|left; reflexivity]| |eexists _, _; split; [reflexivity|right; reflexivity]].
  destruct (uint_chars (Pos.to_uint p)) as [|c l] eqn:E; [elim (uint_pos_some p E)|]. exists c, l. split; [reflexivity|]. left. apply (uint_is_digit (Pos.to_uint p)). rewrite E. left. reflexivity.
Qed.

(* texts *)
Inductive jt : json -> bytes -> Prop :=
| jt_str x : plain x -> jt (JStr x) (quoted x)
| jt_int z : jt (JInt z) (print_d z)
| jt_obj ms s w : jms ms s -> ws w -> jt (JObj ms) (B "{" ++ s ++ w ++ B "}")
| jt_arr es s w : jes es s -> ws w -> jt (JArr es) (B "[" ++ s ++ w ++ B "]")
with jms : list (bytes * json) -> bytes -> Prop :=
| jms_nil : jms [] []
| jms_cons n v w1 w2 s ms s' : plain n -> ws w1 -> ws w2 -> jt v s -> jms ms s' -> jms ((n, v) :: ms) (w1 ++ quoted n ++ B ":" ++ w2 ++ s ++ (match ms with [] => [] | _ => B "," ++ s' end))
with jes : list json -> bytes -> Prop :=
| jes_nil : jes [] []
| jes_cons v w1 s es s' : ws w1 -> jt v s -> jes es s' -> jes (v :: es) (w1 ++ s ++ (match es with [] => [] | _ => B "," ++ s' end)).
Scheme jt_ind' := Induction for jt Sort Prop with jms_ind' := Induction for jms Sort Prop with jes_ind' := Induction for jes Sort Prop.
Combined Scheme jt_all from jt_ind', jms_ind', jes_ind'.

Lemma jt_head v s : jt v s -> exists c t, s = c :: t /\ is_ws c = false.
Proof.
  destruct 1 as [x P|z|ms s w M W|es s w M W]; [eexists _, _; split; [reflexivity|reflexivity]| |eexists _, _; split; [reflexivity|reflexivity]|eexists _, _; split; [reflexivity|reflexivity]].
  destruct (print_head z) as (c & l & -> & D). exists c, l. split; [reflexivity|]. destruct D as [D| ->]; [|reflexivity]. unfold is_digit in D. unfold is_ws. apply andb_true_iff in D as [D1 D2]. apply N.leb_le in D1, D2. clear - D1 D2.
  repeat (apply orb_false_iff; split); apply N.eqb_neq; lia.
Qed.
Lemma jt_not_ws v s r : jt v s -> not_ws (s ++ r).
Proof. intros J. destruct (jt_head v s J) as (c & t & -> & W). exact W. Qed.
Lemma ws_num_ok w r : ws w -> num_ok r -> num_ok (w ++ r).
Proof.
  intros W N. destruct w as [|c w]; [exact N|]. cbn. specialize (W c (or_introl eq_refl)). unfold is_ws in W. unfold is_digit, is_char, byteN in *.
  assert (X : c = " "%char \/ c = ascii_of_nat 9 \/ c = ascii_of_nat 10 \/ c = ascii_of_nat 13).
  { repeat (apply orb_true_iff in W as [W|W]); apply N.eqb_eq in W; apply (f_equal ascii_of_N) in W; rewrite ascii_N_embedding in W; rewrite W; auto. }
  destruct X as [->|[->|[->| ->]]]; repeat split.
Qed.
Lemma value_lemma :
  (forall v s, jt v s -> forall fuel w r, length s <= fuel -> ws w -> num_ok r -> value fuel (w ++ s ++ r) = Some (v, r)) /\
  (forall ms s, jms ms s -> ms <> [] -> forall fuel w r, length s < fuel -> ws w -> members fuel (s ++ w ++ B "}" ++ r) = Some (ms, r)) /\
  (forall es s, jes es s -> es <> [] -> forall fuel w r, length s < fuel -> ws w -> elements fuel (s ++ w ++ B "]" ++ r) = Some (es, r)).
Proof.
  apply jt_all.
  - intros x P fuel w r Lf W N. destruct fuel as [|f]; [cbn in Lf; lia|]. cbn [value]. rewrite skip_ws; [|exact W|reflexivity]. unfold quoted. cbn [app]. rewrite <- app_assoc. cbn [app].
    change (is_char "{" QUOTE) with false. change (is_char "[" QUOTE) with false. change (byteN QUOTE =? 34)%N with true. cbv iota. rewrite str_end_plain by exact P. reflexivity.
  - intros z fuel w r Lf W N. destruct fuel as [|f]; [destruct (print_head z) as (c & l & E & _); rewrite E in Lf; cbn in Lf; lia|]. cbn [value].
    rewrite skip_ws; [|exact W|apply (jt_not_ws (JInt z)); constructor]. pose proof (number_print z r N) as X. destruct (print_head z) as (c & l & E & D). rewrite E in X |- *. cbn [app] in X |- *.
    assert (Q : is_char "{" c = false /\ is_char "[" c = false /\ (byteN c =? 34)%N = false /\ Ascii.eqb "t" c = false /\ Ascii.eqb "f" c = false /\ Ascii.eqb "n" c = false).
    { destruct D as [D| ->]; [|repeat split]. unfold is_digit in D. apply andb_true_iff in D as [D1 D2]. apply N.leb_le in D1, D2. unfold is_char. cbn [B list_ascii_of_string existsb]. rewrite !orb_false_r.
      assert (Y : forall y, (byteN y < 48 \/ 57 < byteN y)%N -> Ascii.eqb c y = false /\ Ascii.eqb y c = false) by (intros y Hy; split; apply Ascii.eqb_neq; intros <-; clear - D1 D2 Hy; lia).
      destruct (Y "{"%char) as [-> _]; [right; reflexivity|]. destruct (Y "["%char) as [-> _]; [right; reflexivity|]. destruct (Y "t"%char) as [_ ->]; [right; reflexivity|].
      destruct (Y "f"%char) as [_ ->]; [right; reflexivity|]. destruct (Y "n"%char) as [_ ->]; [right; reflexivity|]. repeat split. apply N.eqb_neq. clear - D1; lia. }
    destruct Q as (-> & -> & -> & Q1 & Q2 & Q3). cbn [B list_ascii_of_string strip]. rewrite Q1, Q2, Q3. exact X.
  - intros ms s w0 M IH W0 fuel w r Lf W N. destruct fuel as [|f]; [cbn in Lf; lia|]. cbn [value]. rewrite skip_ws; [|exact W|reflexivity]. cbn [B list_ascii_of_string app]. change (is_char "{" "{") with true. cbv iota.
    rewrite <- !app_assoc. cbn [app]. destruct ms as [|m ms].
    + inversion M; subst. cbn [app]. rewrite skip_ws; [|exact W0|reflexivity]. reflexivity.
    + assert (Sk : exists d t, skip (s ++ w0 ++ "}"%char :: r) = d :: t /\ is_char "}" d = false).
      { inversion M; subst. rewrite <- app_assoc. rewrite skip_ws; [|assumption|reflexivity]. unfold quoted. cbn [app]. eexists _, _. split; [reflexivity|reflexivity]. }
      destruct Sk as (d & t & -> & ->). change ("}"%char :: r) with (B "}" ++ r). rewrite IH; [reflexivity|discriminate| |exact W0]. cbn [length B list_ascii_of_string] in Lf. rewrite !app_length in Lf. cbn [length B list_ascii_of_string] in Lf. clear - Lf. lia.
  - intros es s w0 M IH W0 fuel w r Lf W N. destruct fuel as [|f]; [cbn in Lf; lia|]. cbn [value]. rewrite skip_ws; [|exact W|reflexivity]. cbn [B list_ascii_of_string app]. change (is_char "{" "[") with false. change (is_char "[" "[") with true. cbv iota.
    rewrite <- !app_assoc. cbn [app]. destruct es as [|e es].
    + inversion M; subst. cbn [app]. rewrite skip_ws; [|exact W0|reflexivity]. reflexivity.
    + assert (Sk : exists d t, skip (s ++ w0 ++ "]"%char :: r) = d :: t /\ is_char "]" d = false).
      { inversion M as [|v0 w1 s0 es0 s' W1 J Js]; subst. rewrite <- !app_assoc. rewrite skip_ws; [|assumption|eapply jt_not_ws; eassumption]. destruct J as [x P|z|? ? ? ? ?|? ? ? ? ?]; try (cbn [app quoted]; eexists _, _; split; [reflexivity|reflexivity]).
        destruct (print_head z) as (c & l & -> & D). cbn [app]. eexists _, _. split; [reflexivity|]. destruct D as [D| ->]; [|reflexivity]. unfold is_char. cbn. rewrite orb_false_r. apply Ascii.eqb_neq. intros ->. discriminate D. }
      destruct Sk as (d & t & -> & ->). change ("]"%char :: r) with (B "]" ++ r). rewrite IH; [reflexivity|discriminate| |exact W0]. cbn [length B list_ascii_of_string] in Lf. rewrite !app_length in Lf. cbn [length B list_ascii_of_string] in Lf. clear - Lf. lia.
  - intros N. contradiction.
  - intros n v w1 w2 s ms s' P W1 W2 J IHv M IHm _ fuel w r Lf W. destruct fuel as [|f]; [lia|]. cbn [members]. rewrite <- !app_assoc. rewrite skip_ws; [|exact W1|reflexivity]. unfold quoted. cbn [app]. change (byteN QUOTE =? 34)%N with true. cbv iota.
    rewrite <- !app_assoc. cbn [app]. rewrite str_end_plain by exact P. cbn [B list_ascii_of_string app]. change (skip (":"%char :: ?x)) with (":"%char :: x). cbn [skip]. change (is_ws ":") with false. cbv iota. change (is_char ":" ":") with true. cbv iota.
    unfold quoted in Lf. repeat (rewrite ?app_length in Lf; cbn [length B list_ascii_of_string] in Lf).
    destruct ms as [|m ms]; cbn [app].
    + rewrite IHv; [|clear - Lf; lia|exact W2|apply ws_num_ok; [exact W|repeat split]]. rewrite skip_ws; [|exact W|reflexivity]. reflexivity.
    + rewrite IHv; [|clear - Lf; lia|exact W2|repeat split]. cbn [skip]. change (is_ws ",") with false. cbv iota. change (is_char "," ",") with true. cbv iota.
      change ("}"%char :: r) with (B "}" ++ r). rewrite IHm; [reflexivity|discriminate| |exact W]. rewrite ?app_length in Lf; cbn [length B list_ascii_of_string] in Lf. clear - Lf. lia.
  - intros N. contradiction.
  - intros v w1 s es s' W1 J IHv M IHm _ fuel w r Lf W. destruct fuel as [|f]; [lia|]. cbn [elements]. rewrite <- !app_assoc.
    repeat (rewrite ?app_length in Lf; cbn [length B list_ascii_of_string] in Lf).
    destruct es as [|e es]; cbn [app].
    + rewrite IHv; [|clear - Lf; lia|exact W1|apply ws_num_ok; [exact W|repeat split]]. rewrite skip_ws; [|exact W|reflexivity]. reflexivity.
    + rewrite IHv; [|rewrite app_length in Lf; clear - Lf; lia|exact W1|repeat split]. cbn [B list_ascii_of_string app skip]. change (is_ws ",") with false. cbv iota. change (is_char "," ",") with true. cbv iota.
      change ("]"%char :: r) with (B "]" ++ r). rewrite IHm; [reflexivity|discriminate| |exact W]. destruct (jt_head v s J) as (? & ? & -> & _). rewrite ?app_length in Lf; cbn [length B list_ascii_of_string] in Lf. clear - Lf. lia.
Qed.
