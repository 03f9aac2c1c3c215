From Verif Require Import Base UtilStr_Model Base64_Model Fmt_Model Json_Spec Fmt_Spec Fmt_Proofs Fmt_Proofs2.
Local Open Scope nat_scope.

(* more fuel does not change what was read *)
Lemma fuel_step : forall f, (forall s x, value f s = Some x -> value (S f) s = Some x) /\ (forall s x, members f s = Some x -> members (S f) s = Some x) /\ (forall s x, elements f s = Some x -> elements (S f) s = Some x).
Proof.
  induction f as [|f (IHv & IHm & IHe)]; [repeat split; discriminate|]. split; [|split]; intros s x E.
  - change (value (S (S f)) s) with (match skip s with
    | [] => None
    | c :: t =>
      if is_char "{" c then
        match skip t with d :: r => if is_char "}" d then Some (JObj [], r) else match members (S f) t with Some (l, r) => Some (JObj l, r) | None => None end | [] => None end
      else if is_char "[" c then
        match skip t with d :: r => if is_char "]" d then Some (JArr [], r) else match elements (S f) t with Some (l, r) => Some (JArr l, r) | None => None end | [] => None end
      else if (byteN c =? 34)%N then match str_end t with Some (x, r) => Some (JStr x, r) | None => None end
      else
        match strip (B "true") (c :: t), strip (B "false") (c :: t), strip (B "null") (c :: t) with
        | Some r, _, _ => Some (JBool true, r)
        | _, Some r, _ => Some (JBool false, r)
        | _, _, Some r => Some (JNull, r)
        | None, None, None => number (c :: t)
        end
    end). cbn [value] in E. destruct (skip s) as [|c t]; [exact E|]. destruct (is_char "{" c).
    + destruct (skip t) as [|d r]; [exact E|]. destruct (is_char "}" d); [exact E|]. destruct (members f t) as [y|] eqn:Em; [|discriminate E]. rewrite (IHm _ _ Em). exact E.
    + destruct (is_char "[" c); [|exact E]. destruct (skip t) as [|d r]; [exact E|]. destruct (is_char "]" d); [exact E|]. destruct (elements f t) as [y|] eqn:Em; [|discriminate E]. rewrite (IHe _ _ Em). exact E.
  - cbn [members] in E. remember (S f) as g eqn:Eg. cbn [members]. destruct (skip s) as [|q t]; [exact E|]. destruct (byteN q =? 34)%N; [|exact E]. destruct (str_end t) as [[n r]|]; [|exact E]. destruct (skip r) as [|d r']; [exact E|].
    destruct (is_char ":" d); [|exact E]. destruct (value f r') as [[v u]|] eqn:Ev; [|discriminate E]. rewrite (IHv _ _ Ev). destruct (skip u) as [|d' u']; [exact E|]. destruct (is_char "," d'); [|exact E].
    destruct (members f u') as [y|] eqn:Em; [|discriminate E]. rewrite (IHm _ _ Em). exact E.
  - cbn [elements] in E. remember (S f) as g eqn:Eg. cbn [elements]. destruct (value f s) as [[v u]|] eqn:Ev; [|discriminate E]. rewrite (IHv _ _ Ev). destruct (skip u) as [|d' u']; [exact E|]. destruct (is_char "," d'); [|exact E].
    destruct (elements f u') as [y|] eqn:Em; [|discriminate E]. rewrite (IHe _ _ Em). exact E.
Qed.
Lemma fuel_more f g s x : f <= g -> value f s = Some x -> value g s = Some x.
Proof. induction 1 as [|g L IH]; [auto|]. intros E. apply fuel_step. auto. Qed.
Lemma value_any v s w r f : jt v s -> ws w -> num_ok r -> value f (w ++ s ++ r) = None \/ value f (w ++ s ++ r) = Some (v, r).
Proof.
  intros J W N. destruct (value f (w ++ s ++ r)) as [x|] eqn:E; [right|auto]. rewrite <- (fuel_more f (f + length s) _ _ ltac:(lia) E). apply (proj1 value_lemma); [exact J|lia|exact W|exact N].
Qed.
(* not the beginning of a value, whatever follows *)
Definition vbad (s : bytes) : Prop := forall f r, value f (s ++ r) = None.
Definition mbad (s : bytes) : Prop := forall f r, members f (s ++ r) = None.
Definition ebad (s : bytes) : Prop := forall f r, elements f (s ++ r) = None.
Lemma vbad_app s t : vbad s -> vbad (s ++ t). Proof. intros H f r. rewrite <- app_assoc. apply H. Qed.
Lemma mbad_app s t : mbad s -> mbad (s ++ t). Proof. intros H f r. rewrite <- app_assoc. apply H. Qed.
Lemma ebad_app s t : ebad s -> ebad (s ++ t). Proof. intros H f r. rewrite <- app_assoc. apply H. Qed.
Lemma vbad_char w c : ws w -> In c [","%char; ":"%char; "]"%char; "}"%char] -> vbad (w ++ [c]).
Proof. intros W I [|f] r; [reflexivity|]. cbn [value]. rewrite <- app_assoc. destruct I as [<-|[<-|[<-|[<-|[]]]]]; (rewrite skip_ws; [reflexivity|exact W|reflexivity]). Qed.
Lemma ebad_value s : vbad s -> ebad s. Proof. intros H [|f] r; [reflexivity|]. cbn [elements]. rewrite H. reflexivity. Qed.
Lemma ebad_more es s t : jes es s -> ebad t -> ebad (match es with [] => t | _ => s ++ B "," ++ t end).
Proof.
  intros J H. induction J as [|v w1 s es s' W1 Jt J IH] using jes_ind; [exact H|]. intros [|f] r; [reflexivity|]. cbn [elements]. rewrite <- !app_assoc.
  set (u := match es with [] => [] | _ => B "," ++ s' end ++ B "," ++ t ++ r). assert (X : exists r', u = ","%char :: r' /\ forall f, elements f r' = None).
  { destruct es as [|e es]; [exists (t ++ r); split; [reflexivity|intros; apply H]|]. exists (s' ++ B "," ++ t ++ r). split; [reflexivity|]. intros g. pose proof (IH g r) as X. rewrite <- !app_assoc in X. exact X. }
  destruct X as (r' & -> & X). destruct (value_any v s w1 (","%char :: r') f Jt W1 ltac:(repeat split)) as [-> | ->]; [reflexivity|]. cbn [skip]. change (is_ws ",") with false. cbv iota. change (is_char "," ",") with true. cbv iota. rewrite X. reflexivity.
Qed.
(* an element not followed by a comma or the end *)
Lemma ebad_quote es s w : jes es s -> es <> [] -> ws w -> ebad (s ++ w ++ [QUOTE]).
Proof.
  intros J Ne W. induction J as [|v w1 s es s' W1 Jt J IH] using jes_ind; [contradiction|]. intros [|f] r; [reflexivity|]. cbn [elements]. rewrite <- !app_assoc. destruct es as [|e es].
  - cbn [app]. destruct (value_any v s w1 (w ++ QUOTE :: r) f Jt W1 ltac:(apply ws_num_ok; [exact W|repeat split])) as [-> | ->]; [reflexivity|]. rewrite skip_ws; [reflexivity|exact W|reflexivity].
  - cbn [app B list_ascii_of_string]. destruct (value_any v s w1 (","%char :: s' ++ w ++ QUOTE :: r) f Jt W1 ltac:(repeat split)) as [-> | ->]; [reflexivity|]. cbn [skip]. change (is_ws ",") with false. cbv iota. change (is_char "," ",") with true. cbv iota.
    pose proof (IH ltac:(discriminate) f r) as X. rewrite <- !app_assoc in X. cbn [app] in X. rewrite X. reflexivity.
Qed.
Lemma vbad_array w t : ws w -> ebad t -> (forall r, exists c u, skip (t ++ r) = c :: u /\ is_char "]" c = false) -> vbad (w ++ B "[" ++ t).
Proof.
  intros W H Hd [|f] r; [reflexivity|]. cbn [value]. rewrite <- !app_assoc. rewrite skip_ws; [|exact W|reflexivity]. cbn [B list_ascii_of_string app]. change (is_char "{" "[") with false. change (is_char "[" "[") with true. cbv iota.
  destruct (Hd r) as (c & u & -> & ->). rewrite H. reflexivity.
Qed.
Lemma mbad_value w n w' t : ws w -> plain n -> ws w' -> vbad t -> mbad (w ++ quoted n ++ w' ++ B ":" ++ t).
Proof.
  intros W P W' H [|f] r; [reflexivity|]. cbn [members]. rewrite <- !app_assoc. rewrite skip_ws; [|exact W|reflexivity]. unfold quoted. cbn [app]. change (byteN QUOTE =? 34)%N with true. cbv iota.
  rewrite <- !app_assoc. cbn [app]. rewrite str_end_plain by exact P. rewrite skip_ws; [|exact W'|reflexivity]. cbn [B list_ascii_of_string app]. change (is_char ":" ":") with true. cbv iota. rewrite H. reflexivity.
Qed.
Lemma mbad_more ms s t : jms ms s -> mbad t -> mbad (match ms with [] => t | _ => s ++ B "," ++ t end).
Proof.
  intros J H. induction J as [|n v w1 w2 s ms s' P W1 W2 Jt J IH] using jms_ind; [exact H|]. intros [|f] r; [reflexivity|]. cbn [members]. rewrite <- !app_assoc. rewrite skip_ws; [|exact W1|reflexivity]. unfold quoted. cbn [app]. change (byteN QUOTE =? 34)%N with true. cbv iota.
  rewrite <- !app_assoc. cbn [app]. rewrite str_end_plain by exact P. cbn [B list_ascii_of_string app]. cbn [skip]. change (is_ws ":") with false. cbv iota. change (is_char ":" ":") with true. cbv iota.
  match goal with |- context [value f (w2 ++ s ++ ?x)] => set (u := x) end. assert (X : exists r', u = ","%char :: r' /\ forall f, members f r' = None).
  { unfold u. destruct ms as [|m ms]; [exists (t ++ r); split; [reflexivity|intros; apply H]|]. exists (s' ++ B "," ++ t ++ r). split; [reflexivity|]. intros g. pose proof (IH g r) as X. rewrite <- !app_assoc in X. exact X. }
  destruct X as (r' & -> & X). destruct (value_any v s w2 (","%char :: r') f Jt W2 ltac:(repeat split)) as [-> | ->]; [reflexivity|]. cbn [skip]. change (is_ws ",") with false. cbv iota. change (is_char "," ",") with true. cbv iota. rewrite X. reflexivity.
Qed.
Lemma mbad_quote ms s w : jms ms s -> ms <> [] -> ws w -> mbad (s ++ w ++ [QUOTE]).
Proof.
  intros J Ne W. induction J as [|n v w1 w2 s ms s' P W1 W2 Jt J IH] using jms_ind; [contradiction|]. intros [|f] r; [reflexivity|]. cbn [members]. rewrite <- !app_assoc. rewrite skip_ws; [|exact W1|reflexivity]. unfold quoted. cbn [app]. change (byteN QUOTE =? 34)%N with true. cbv iota.
  rewrite <- !app_assoc. cbn [app]. rewrite str_end_plain by exact P. cbn [B list_ascii_of_string app]. cbn [skip]. change (is_ws ":") with false. cbv iota. change (is_char ":" ":") with true. cbv iota. destruct ms as [|m ms].
  - cbn [app]. destruct (value_any v s w2 (w ++ QUOTE :: r) f Jt W2 ltac:(apply ws_num_ok; [exact W|repeat split])) as [-> | ->]; [reflexivity|]. rewrite skip_ws; [reflexivity|exact W|reflexivity].
  - cbn [app]. destruct (value_any v s w2 (","%char :: s' ++ w ++ QUOTE :: r) f Jt W2 ltac:(repeat split)) as [-> | ->]; [reflexivity|]. cbn [skip]. change (is_ws ",") with false. cbv iota. change (is_char "," ",") with true. cbv iota.
    pose proof (IH ltac:(discriminate) f r) as X. rewrite <- !app_assoc in X. cbn [app] in X. rewrite X. reflexivity.
Qed.
Lemma vbad_object w t : ws w -> mbad t -> (forall r, exists c u, skip (t ++ r) = c :: u /\ is_char "}" c = false) -> vbad (w ++ B "{" ++ t).
Proof.
  intros W H Hd [|f] r; [reflexivity|]. cbn [value]. rewrite <- !app_assoc. rewrite skip_ws; [|exact W|reflexivity]. cbn [B list_ascii_of_string app]. change (is_char "{" "{") with true. cbv iota.
  destruct (Hd r) as (c & u & -> & ->). rewrite H. reflexivity.
Qed.
(* without looking ahead at the first character: an empty object or array is the only way out *)
Lemma vbad_parse s r : vbad s -> parse (s ++ r) = None. Proof. intros H. unfold parse. rewrite H. reflexivity. Qed.
