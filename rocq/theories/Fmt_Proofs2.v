From Verif Require Import Base UtilStr_Model Base64_Model Base64_Spec Base64_Proofs Fmt_Model Json_Spec Fmt_Spec Fmt_Proofs.
Local Open Scope nat_scope.

Lemma emits_app f a b : emits f (a ++ b) = emits f a ++ emits f b.
Proof. unfold emits. rewrite map_app, concat_app. reflexivity. Qed.
Lemma emits_cons f o os : emits f (o :: os) = emit f o ++ emits f os. Proof. reflexivity. Qed.
Lemma emits_one f o : emits f [o] = emit f o. Proof. unfold emits. cbn [map List.concat]. apply app_nil_r. Qed.
Lemma b64_plain_byte c : implb (is_b64_char c) (plain_byte c) = true.
Proof. destruct c as [[] [] [] [] [] [] [] []]; reflexivity. Qed.
Lemma binary_plain v : plain (binary v).
Proof. intros c I. pose proof (b64_plain_byte c) as X. assert (T : is_b64_char c = true) by (apply (proj1 (forallb_forall is_b64_char (text v)) (text_chars v)); exact I). rewrite T in X. exact X. Qed.
Lemma binary_text v : base64_text v (binary v).
Proof.
  destruct v as [|x v]; [left; auto|]. right. split; [discriminate|]. split; [apply decode_text; discriminate|]. intros c I. apply (proj1 (forallb_forall is_b64_char (text (x :: v))) (text_chars (x :: v))). exact I.
Qed.
Scheme fld_ind' := Induction for fld_calls Sort Prop with flds_ind' := Induction for flds_calls Sort Prop with elt_ind' := Induction for elt_calls Sort Prop with elts_ind' := Induction for elts_calls Sort Prop.
Combined Scheme calls_all from fld_ind', flds_ind', elt_ind', elts_ind'.
Definition comma (c : bool) : bytes := if c then B "," else [].
Lemma comma_break c l : break c l = comma c ++ LF :: indent l. Proof. reflexivity. Qed.
(* a member or element as text, without the comma before it *)
Lemma calls_text :
  (forall c m os, fld_calls binary c m os -> exists w1 w2 s, emits JSON os = comma c ++ w1 ++ quoted (fst m) ++ B ":" ++ w2 ++ s /\ ws w1 /\ ws w2 /\ plain (fst m) /\ jt (snd m) s) /\
  (forall c ms os, flds_calls binary c ms os -> exists s, jms ms s /\ emits JSON os = match ms with [] => [] | _ => comma c ++ s end) /\
  (forall c v os, elt_calls binary c v os -> exists w s, emits JSON os = comma c ++ w ++ s /\ ws w /\ jt v s) /\
  (forall c vs os, elts_calls binary c vs os -> exists s, jes vs s /\ emits JSON os = match vs with [] => [] | _ => comma c ++ s end).
Proof.
  assert (W1 : ws (B " ")) by (intros c [<-|[]]; reflexivity).
  assert (WL : forall l, ws (LF :: indent l)) by (intros l; apply ws_lf, ws_indent).
  apply calls_all.
  - intros c l n v Pn Pv. rewrite emits_one. cbn [emit fst snd]. exists (LF :: indent l), (B " "), (quoted v). split; [unfold break; fold (comma c); rewrite <- !app_assoc; reflexivity|]. split; [apply WL|]. split; [exact W1|]. split; [exact Pn|]. constructor. exact Pv.
  - intros c l n v Pn. rewrite emits_one. cbn [emit fst snd]. exists (LF :: indent l), (B " "), (quoted (binary v)). split; [unfold break; fold (comma c); rewrite <- !app_assoc; reflexivity|]. split; [apply WL|]. split; [exact W1|]. split; [exact Pn|]. constructor. apply binary_plain.
  - intros c l n v Pn. rewrite emits_one. cbn [emit fst snd]. exists (LF :: indent l), (B " "), (print_u v). split; [unfold break; fold (comma c); rewrite <- !app_assoc; reflexivity|]. split; [apply WL|]. split; [exact W1|]. split; [exact Pn|]. rewrite print_u_d. constructor.
  - intros c l n v Pn. rewrite emits_one. cbn [emit fst snd]. exists (LF :: indent l), (B " "), (print_u v). split; [unfold break; fold (comma c); rewrite <- !app_assoc; reflexivity|]. split; [apply WL|]. split; [exact W1|]. split; [exact Pn|]. rewrite print_u_d. constructor.
  - intros c l n v Pn. rewrite emits_one. cbn [emit fst snd]. exists (LF :: indent l), (B " "), (print_d v). split; [unfold break; fold (comma c); rewrite <- !app_assoc; reflexivity|]. split; [apply WL|]. split; [exact W1|]. split; [exact Pn|]. constructor.
  - intros c l l' n vs os Pn E (s & Js & Es). rewrite emits_cons, emits_app, emits_one, Es. cbn [emit fst snd].
    exists (LF :: indent l), (B " "), (B "[" ++ s ++ (LF :: indent l') ++ B "]"). split; [|split; [apply WL|split; [exact W1|split; [exact Pn|constructor; [exact Js|apply WL]]]]].
    replace (match vs with [] => [] | _ => comma false ++ s end) with s by (destruct vs; [inversion Js; reflexivity|reflexivity]). unfold break. fold (comma c). rewrite <- !app_assoc. reflexivity.
  - intros c l l' l'' n ms os Pn E (s & Js & Es). rewrite !emits_cons, emits_app, emits_one, Es. cbn [emit fst snd].
    exists (LF :: indent l), (LF :: LF :: indent l'), (B "{" ++ s ++ (LF :: indent l'') ++ B "}"). split; [|split; [apply WL|split; [apply ws_lf, WL|split; [exact Pn|constructor; [exact Js|apply WL]]]]].
    replace (match ms with [] => [] | _ => comma false ++ s end) with s by (destruct ms; [inversion Js; reflexivity|reflexivity]). unfold break. fold (comma c). cbn [app]. rewrite <- !app_assoc. cbn [app]. rewrite <- ?app_assoc. reflexivity.
  - intros c. exists []. split; [constructor|reflexivity].
  - intros c [n v] ms os os' F (w1 & w2 & s & E1 & A1 & A2 & Pn & J) Fs (s' & Js & Es). cbn [fst snd] in *. rewrite emits_app, E1, Es. eexists. split; [econstructor; [exact Pn|exact A1|exact A2|exact J|exact Js]|].
    destruct ms; cbn [comma]; rewrite <- !app_assoc; reflexivity.
  - intros c l v Pv. rewrite emits_one. cbn [emit]. exists (LF :: indent l), (quoted v). split; [unfold break; fold (comma c); rewrite <- !app_assoc; reflexivity|]. split; [apply WL|constructor; exact Pv].
  - intros c l v. rewrite emits_one. cbn [emit]. exists (LF :: indent l), (quoted (binary v)). split; [unfold break; fold (comma c); rewrite <- !app_assoc; reflexivity|]. split; [apply WL|constructor; apply binary_plain].
  - intros c l v. rewrite emits_one. cbn [emit]. exists (LF :: indent l), (print_u v). split; [unfold break; fold (comma c); rewrite <- !app_assoc; reflexivity|]. split; [apply WL|rewrite print_u_d; constructor].
  - intros c l l' ms os E (s & Js & Es). rewrite emits_cons, emits_app, emits_one, Es. cbn [emit].
    exists (LF :: indent l), (B "{" ++ s ++ (LF :: indent l') ++ B "}"). split; [|split; [apply WL|constructor; [exact Js|apply WL]]].
    replace (match ms with [] => [] | _ => comma false ++ s end) with s by (destruct ms; [inversion Js; reflexivity|reflexivity]). unfold break. fold (comma c). rewrite <- !app_assoc. reflexivity.
  - intros c. exists []. split; [constructor|reflexivity].
  - intros c v vs os os' F (w & s & E1 & A1 & J) Fs (s' & Js & Es). rewrite emits_app, E1, Es. eexists. split; [econstructor; [exact A1|exact J|exact Js]|]. destruct vs; cbn [comma]; rewrite <- !app_assoc; reflexivity.
Qed.
Lemma doc_text v os : doc_calls binary v os -> exists w s w', emits JSON os = w ++ s ++ w' /\ ws w /\ jt v s /\ ws w'.
Proof.
  intros D. destruct D as [l l' ms os F|l l' ms os F]; destruct (proj1 (proj2 calls_text) _ _ _ F) as (s & Js & Es); rewrite emits_cons, emits_app, emits_one, Es; cbn [emit];
    replace (match ms with [] => [] | _ => comma false ++ s end) with s by (destruct ms; [inversion Js; reflexivity|reflexivity]).
  - exists (indent l), (B "{" ++ s ++ (LF :: indent l') ++ B "}"), [LF]. split; [rewrite <- !app_assoc; reflexivity|]. split; [apply ws_indent|]. split; [constructor; [exact Js|apply ws_lf, ws_indent]|apply ws_lf, ws_nil].
  - exists (LF :: indent l), (B "{" ++ s ++ (LF :: indent l') ++ B "}"), []. split; [unfold break; rewrite <- !app_assoc, app_nil_r; reflexivity|]. split; [apply ws_lf, ws_indent|]. split; [constructor; [exact Js|apply ws_lf, ws_indent]|apply ws_nil].
Qed.
Lemma doc_lemma : exists b64, (forall v, base64_text v (b64 v)) /\ forall v os, doc_calls b64 v os -> parse (emits JSON os) = Some v.
Proof.
  exists binary. split; [exact binary_text|]. intros v os D. destruct (doc_text v os D) as (w & s & w' & -> & W & J & W'). unfold parse. rewrite (proj1 value_lemma v s J); [|rewrite !app_length; lia|exact W|].
  - rewrite <- (app_nil_r w'). rewrite skip_ws; [reflexivity|exact W'|exact I].
  - rewrite <- (app_nil_r w'). apply ws_num_ok; [exact W'|exact I].
Qed.
(* what a string literal reads as is no longer than its text, and as long only if nothing is escaped *)
Lemma str_end_inv n : forall s, length s < n -> forall x r, str_end s = Some (x, r) ->
  exists c, s = c ++ QUOTE :: r /\ length x <= length c /\ (length x = length c -> x = c /\ plain c).
Proof.
  induction n as [|n IH]; intros s L x r E; [lia|]. destruct s as [|c s]; [discriminate E|]. cbn [str_end] in E. cbn [length] in L.
  destruct (byteN c =? 34)%N eqn:E34.
  - injection E as <- <-. exists []. split; [|split; [reflexivity|intros _; split; [reflexivity|intros ? []]]]. cbn [app]. f_equal. unfold QUOTE. apply N.eqb_eq in E34. rewrite <- (ascii_N_embedding c). change (N_of_ascii c) with (byteN c). rewrite E34. reflexivity.
  - destruct (byteN c =? 92)%N eqn:E92.
    + destruct s as [|e s]; [discriminate E|]. destruct (is_char "u" e).
      * destruct s as [|h1 [|h2 [|h3 [|h4 s]]]]; try discriminate E. destruct (hex h1), (hex h2), (hex h3), (hex h4); try discriminate E.
        destruct (str_end s) as [[y t]|] eqn:Es; [|discriminate E]. injection E as <- <-. destruct (IH s ltac:(cbn [length] in L; clear - L; lia) y t Es) as (c' & -> & Lc & _).
        exists (c :: e :: h1 :: h2 :: h3 :: h4 :: c'). split; [reflexivity|]. set (u := utf8 _). assert (Lu : length u <= 3). { unfold u, utf8. repeat (match goal with |- context [if ?b then _ else _] => destruct b end); cbn [length]; lia. }
        clearbody u. rewrite app_length. cbn [length]. split; [clear - Lc Lu; lia|]. intros Q. clear - Lc Lu Q. lia.
      * destruct (unescape e) as [b|]; [|discriminate E]. destruct (str_end s) as [[y t]|] eqn:Es; [|discriminate E]. injection E as <- <-. destruct (IH s ltac:(cbn [length] in L; clear - L; lia) y t Es) as (c' & -> & Lc & _).
        exists (c :: e :: c'). split; [reflexivity|]. cbn [app length]. split; [clear - Lc; lia|]. intros Q. clear - Lc Q. lia.
    + destruct (byteN c <? 32)%N eqn:E32; [discriminate E|]. destruct (str_end s) as [[y t]|] eqn:Es; [|discriminate E]. injection E as <- <-. destruct (IH s ltac:(clear - L; lia) y t Es) as (c' & -> & Lc & Q).
      exists (c :: c'). split; [reflexivity|]. cbn [app length]. split; [clear - Lc; lia|]. intros Q'. destruct (Q ltac:(clear - Q'; lia)) as [-> P]. split; [reflexivity|]. intros d [<-|I]; [|exact (P d I)]. unfold plain_byte. rewrite E34, E92, E32. reflexivity.
Qed.
Lemma split_quote (a b x y : bytes) : a ++ QUOTE :: b = x ++ QUOTE :: y -> length a <= length x -> ~ In QUOTE b -> a = x /\ b = y.
Proof.
  revert x. induction a as [|c a IH]; intros [|d x] E L N; cbn [app] in E; cbn [length] in L.
  - injection E as <-. auto.
  - injection E as <- ->. exfalso. apply N. apply in_or_app. right. left. reflexivity.
  - lia.
  - injection E as <- E. destruct (IH x E ltac:(lia) N) as [-> ->]. auto.
Qed.
Lemma indent_no_quote l : ~ In QUOTE (indent l).
Proof. intros I. apply ws_indent in I. discriminate I. Qed.
(* the document of one string field *)
Lemma one_field_lemma l l' l'' n v : plain n -> (parse (emits JSON [DocStart l; FldStr l' n v false; DocEnd l'']) = Some (JObj [(n, JStr v)]) <-> plain v).
Proof.
  intros Pn. split; intros H.
  - unfold emits in H. cbn [map List.concat emit break app] in H. unfold parse in H. set (s := (indent l ++ B "{") ++ _) in H.
    assert (Es : s = indent l ++ "{"%char :: (LF :: indent l') ++ QUOTE :: (n ++ QUOTE :: (":"%char :: " "%char :: QUOTE :: (v ++ QUOTE :: (LF :: indent l'' ++ "}"%char :: LF :: []))))).
    { unfold s, quoted. cbn [B list_ascii_of_string app]. repeat (rewrite <- !app_assoc; cbn [app]). rewrite ?app_nil_r. reflexivity. }
    clearbody s. rewrite Es in H at 2. clear Es. destruct (S (length s)) as [|f]; [discriminate H|]. cbn [value] in H. rewrite skip_ws in H; [|apply ws_indent|reflexivity]. change (is_char "{" "{") with true in H. cbv iota in H.
    rewrite skip_ws in H; [|apply ws_lf, ws_indent|reflexivity]. change (is_char "}" QUOTE) with false in H. cbv iota in H.
    destruct f as [|f]; [discriminate H|]. cbn [members] in H. rewrite skip_ws in H; [|apply ws_lf, ws_indent|reflexivity]. change (byteN QUOTE =? 34)%N with true in H. cbv iota in H.
    rewrite str_end_plain in H by exact Pn. cbn [skip] in H. change (is_ws ":") with false in H. cbv iota in H. change (is_char ":" ":") with true in H. cbv iota in H.
    destruct f as [|f]; [discriminate H|]. cbn [value skip] in H. change (is_ws " ") with true in H. cbv iota in H. change (is_ws QUOTE) with false in H. cbv iota in H.
    change (is_char "{" QUOTE) with false in H. change (is_char "[" QUOTE) with false in H. change (byteN QUOTE =? 34)%N with true in H. cbv iota in H.
    destruct (str_end (v ++ QUOTE :: (LF :: indent l'' ++ "}"%char :: LF :: []))) as [[x r]|] eqn:Ex; [|discriminate H].
    assert (x = v) as ->. { destruct (skip r) as [|d r']; [discriminate H|]. destruct (is_char "," d); [|destruct (is_char "}" d); [|discriminate H]].
      - destruct (members (S f) r') as [[ms r'']|]; [|discriminate H]. destruct (skip r''); [|discriminate H]. injection H as H _. exact H.
      - destruct (skip r'); [|discriminate H]. injection H as H. exact H. }
    destruct (str_end_inv _ _ (Nat.lt_succ_diag_r _) _ _ Ex) as (c & Ec & Lc & Q).
    destruct (split_quote v _ c r Ec Lc) as [-> _].
    + intros [I|I]; [discriminate I|]. apply in_app_or in I as [I|[I|[I|[]]]]; [exact (indent_no_quote _ I)|discriminate I|discriminate I].
    + apply Q. reflexivity.
  - assert (D : doc_calls binary (JObj [(n, JStr v)]) (DocStart l :: ([FldStr l' n v false] ++ []) ++ [DocEnd l''])) by (constructor; econstructor; [constructor; [exact Pn|exact H]|constructor]).
    destruct (doc_text _ _ D) as (w & s & w' & E & W & J & W'). cbn [app] in E. rewrite E. unfold parse. rewrite (proj1 value_lemma _ s J); [|rewrite !app_length; lia|exact W|].
    + rewrite <- (app_nil_r w'). rewrite skip_ws; [reflexivity|exact W'|exact I].
    + rewrite <- (app_nil_r w'). apply ws_num_ok; [exact W'|exact I].
Qed.
(* members followed by something that is not a member *)
Lemma members_bad ms s : jms ms s -> forall fuel r, length s < fuel -> (forall f, members f r = None) -> members fuel (match ms with [] => r | _ => s ++ B "," ++ r end) = None.
Proof.
  intros M. induction M as [|n v w1 w2 s ms s' P W1 W2 J M IH] using jms_ind; intros fuel r Lf Hr; [apply Hr|].
  destruct fuel as [|f]; [lia|]. cbn [members]. rewrite <- !app_assoc. rewrite skip_ws; [|exact W1|reflexivity]. unfold quoted. cbn [app]. change (byteN QUOTE =? 34)%N with true. cbv iota.
  rewrite <- !app_assoc. cbn [app]. rewrite str_end_plain by exact P. cbn [B list_ascii_of_string app]. cbn [skip]. change (is_ws ":") with false. cbv iota. change (is_char ":" ":") with true. cbv iota.
  unfold quoted in Lf. repeat (rewrite ?app_length in Lf; cbn [length B list_ascii_of_string] in Lf).
  assert (X : exists r', (match ms with [] => [] | _ => ","%char :: s' end) ++ ","%char :: r = ","%char :: r' /\ members f r' = None).
  { destruct ms as [|m ms]; [exists r; auto|]. exists (s' ++ B "," ++ r). split; [reflexivity|]. apply IH; [|exact Hr]. rewrite ?app_length in Lf; cbn [length B list_ascii_of_string] in Lf. clear - Lf. lia. }
  destruct X as (r' & X & Y). match goal with |- context [value f ?t] => replace t with (w2 ++ s ++ ","%char :: r') by (rewrite <- X; destruct ms; reflexivity) end.
  rewrite (proj1 value_lemma v s J); [|clear - Lf; lia|exact W2|repeat split]. cbn [skip]. change (is_ws ",") with false. cbv iota. change (is_char "," ",") with true. cbv iota. rewrite Y. reflexivity.
Qed.
Lemma bool_lemma b64 l l' n v ms os os' : flds_calls b64 false ms os -> b64 = binary ->
  parse (emits JSON (DocStart l :: os ++ FldBool l' n v (match ms with [] => false | _ => true end) :: os')) = None.
Proof.
  intros F ->. destruct (proj1 (proj2 calls_text) _ _ _ F) as (s & Js & Es). rewrite emits_cons, emits_app, emits_cons, Es. cbn [emit]. unfold break.
  set (t := (B "{" ++ quoted n ++ B ": " ++ (if v then B "true" else B "false") ++ B "}") ++ emits JSON os').
  assert (Et : exists t', t = "{"%char :: t') by (eexists; reflexivity). set (r := (LF :: indent l') ++ t).
  assert (Hr : forall f, members f r = None). { intros [|f]; [reflexivity|]. destruct Et as (t' & Et). cbn [members]. unfold r. rewrite skip_ws; [|apply ws_lf, ws_indent|rewrite Et; reflexivity]. rewrite Et. reflexivity. }
  assert (Eq : exists z, (indent l ++ B "{") ++ (match ms with [] => [] | _ => comma false ++ s end) ++ (((if match ms with [] => false | _ => true end then B "," else []) ++ LF :: indent l') ++ B "{" ++ quoted n ++ B ": " ++ (if v then B "true" else B "false") ++ B "}") ++ emits JSON os'
    = indent l ++ "{"%char :: z /\ z = (match ms with [] => r | _ => s ++ B "," ++ r end) /\ length s < length (indent l ++ "{"%char :: z)).
  { eexists. split; [|split; [reflexivity|]].
    - unfold r, t. destruct ms; cbn [comma app B list_ascii_of_string]; repeat (rewrite <- !app_assoc; cbn [app]); reflexivity.
    - rewrite app_length. cbn [length]. destruct ms; [inversion Js; subst; cbn [length]; lia|]. rewrite app_length. cbn [length]. lia. }
  destruct Eq as (z & Ez & Ez' & Lz). match goal with |- parse ?x = None => replace x with (indent l ++ "{"%char :: z) by (symmetry; exact Ez) end.
  clear Ez. unfold parse. cbn [value]. rewrite skip_ws; [|apply ws_indent|reflexivity]. change (is_char "{" "{") with true. cbv iota.
  destruct (skip z) as [|d zr] eqn:Sz; [reflexivity|].
  assert (Hd : is_char "}" d = false).
  { rewrite Ez' in Sz. destruct Js as [|n0 v0 w1 w2 s0 ms s' P W1 W2 J M].
    - destruct Et as (t' & Et). unfold r in Sz. rewrite skip_ws in Sz; [|apply ws_lf, ws_indent|rewrite Et; reflexivity]. rewrite Et in Sz. injection Sz as <- _. reflexivity.
    - rewrite <- app_assoc in Sz. rewrite skip_ws in Sz; [|exact W1|reflexivity]. injection Sz as <- _. reflexivity. }
  rewrite Hd. rewrite Ez'. rewrite (members_bad ms s Js _ r Lz Hr) || (rewrite Ez' in Lz; rewrite (members_bad ms s Js _ r Lz Hr)). reflexivity.
Qed.
