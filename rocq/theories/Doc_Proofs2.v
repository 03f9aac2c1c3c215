From Verif Require Import Base UtilStr_Model UbrKey_Model UbrDb_Model UbrRec_Model UbrRec_Spec UbrRec_Proofs Base64_Model Fmt_Model Json_Spec Fmt_Spec Fmt_Proofs Fmt_Proofs2 Doc_Model Doc_Spec Doc_Proofs.
Local Open Scope nat_scope.

Lemma parse_doc v os : doc_calls binary v os -> parse (emits JSON os) = Some v.
Proof.
  intros D. destruct (doc_text v os D) as (w & s & w' & -> & W & J & W'). unfold parse. rewrite (proj1 value_lemma v s J); [|rewrite !app_length; lia|exact W|].
  - rewrite <- (app_nil_r w'). rewrite skip_ws; [reflexivity|exact W'|exact I].
  - rewrite <- (app_nil_r w'). apply ws_num_ok; [exact W'|exact I].
Qed.
Definition starts (s : bytes) : Prop := forall r, exists c u, skip (s ++ r) = c :: u /\ is_char "]" c = false /\ is_char "}" c = false.
Lemma starts_app s t : starts s -> starts (s ++ t). Proof. intros H r. rewrite <- app_assoc. apply H. Qed.
Lemma starts_char w c : ws w -> is_ws c = false -> is_char "]" c = false -> is_char "}" c = false -> starts (w ++ [c]).
Proof. intros W A B C r. rewrite <- app_assoc. rewrite skip_ws; [|exact W|exact A]. eexists _, _. split; [reflexivity|auto]. Qed.
Lemma starts_jt v s w : jt v s -> ws w -> starts (w ++ s).
Proof.
  intros J W r. rewrite <- app_assoc. rewrite skip_ws; [|exact W|eapply jt_not_ws; eassumption]. destruct J as [x P|z|? ? ? ? ?|? ? ? ? ?]; try (cbn [app quoted]; eexists _, _; split; [reflexivity|split; reflexivity]).
  destruct (print_head z) as (c & l & -> & D). cbn [app]. eexists _, _. split; [reflexivity|]. destruct D as [D| ->]; [|split; reflexivity]. unfold is_char. cbn. rewrite !orb_false_r. split; apply Ascii.eqb_neq; intros ->; discriminate D.
Qed.
Lemma starts_jes v vs s : jes (v :: vs) s -> starts s.
Proof. intros J. inversion J as [|v0 w1 s0 es s' W1 Jt Js]; subst. rewrite app_assoc. apply starts_app. eapply starts_jt; eassumption. Qed.
Lemma starts_quoted w n : ws w -> starts (w ++ quoted n).
Proof. intros W. change (quoted n) with ([QUOTE] ++ (n ++ [QUOTE])). rewrite app_assoc. apply starts_app. apply starts_char; [exact W|reflexivity..]. Qed.
Lemma starts_jms m ms s : jms (m :: ms) s -> starts s.
Proof. intros J. inversion J; subst. rewrite app_assoc. apply starts_app. apply starts_quoted. assumption. Qed.
Lemma ws_line l : ws (LF :: indent l). Proof. apply ws_lf, ws_indent. Qed.

Lemma string_data_spec d : d <> [] -> (is_string_data d = true <-> exists s, string_data s d).
Proof.
  intros N. pose proof (app_removelast_last NUL N) as L. unfold is_string_data. rewrite andb_true_iff, Ascii.eqb_eq, forallb_forall. split.
  - intros [E F]. exists (removelast d). split; [rewrite L at 1; rewrite E; reflexivity|]. intros c I. specialize (F c I). unfold isprint in F. apply andb_true_iff in F as [A B]. apply N.leb_le in A, B. auto.
  - intros (s & E & P). rewrite L in E. apply app_inj_tail in E as [<- E]. split; [exact E|]. intros c I. destruct (P c I) as [A B]. unfold isprint. apply andb_true_iff. split; apply N.leb_le; assumption.
Qed.
Lemma string_data_last s d : string_data s d -> removelast d = s. Proof. intros [-> _]. apply removelast_last. Qed.
Fixpoint goodi (first : bool) (ds : list bytes) : Prop :=
  match ds with [] => True | d :: ds => (if first then d = [] \/ exists t, string_data t d else d <> []) /\ goodi false ds end.
Lemma goodi_tail ds : goodi false ds <-> ~ In [] ds.
Proof. induction ds as [|d ds IH]; [cbn; tauto|]. cbn [goodi In]. rewrite IH. split; [intros [A B] [C|C]; auto|intros H; split; [intros ->; apply H; auto|auto]]. Qed.
Lemma items_good l ds : forall first vals, Forall2 (datum binary) ds vals -> goodi first ds -> elts_calls binary (negb first) vals (print_items l first ds).
Proof.
  induction ds as [|d ds IH]; intros first vals F G; inversion F as [|? v ? vals' Dv Fv]; subst; [constructor|]. destruct G as [G1 G2]. cbn [print_items].
  assert (X : elt_calls binary (negb first) v [match d with [] => AStr (l + 1) [] false | _ => if is_string_data d then AStr (l + 1) (removelast d) (negb first) else ABin (l + 1) d true end]).
  { destruct Dv as [|s d Sd Pl|d Nd Ns].
    - destruct first; [|exfalso; apply G1; reflexivity]. constructor. intros c [].
    - assert (Nd : d <> []) by (destruct Sd as [-> _]; destruct s; discriminate). rewrite (proj2 (string_data_spec d Nd)) by eauto. rewrite (string_data_last s d Sd). destruct d; [contradiction|]. constructor. exact Pl.
    - assert (is_string_data d = false) as ->. { destruct (is_string_data d) eqn:E; [|reflexivity]. apply (string_data_spec d Nd) in E as [s E]. exfalso. exact (Ns s E). }
      destruct first; [destruct G1 as [G1|[t G1]]; [contradiction|exfalso; exact (Ns t G1)]|]. destruct d; [contradiction|]. constructor. }
  change (?a :: ?b) with ([a] ++ b). constructor; [exact X|]. exact (IH false vals' Fv G2).
Qed.
Lemma print_items_app l first a d b : print_items l first ((d :: a) ++ b) = print_items l first (d :: a) ++ print_items l false b.
Proof. revert first d. induction a as [|x a IH]; intros first d; [reflexivity|]. cbn [app print_items]. f_equal. exact (IH false x). Qed.
Lemma elts_text c vs os : elts_calls binary c vs os -> exists s, jes vs s /\ emits JSON os = match vs with [] => [] | _ => comma c ++ s end.
Proof. apply (proj2 (proj2 (proj2 calls_text))). Qed.
Lemma flds_text c ms os : flds_calls binary c ms os -> exists s, jms ms s /\ emits JSON os = match ms with [] => [] | _ => comma c ++ s end.
Proof. apply (proj1 (proj2 calls_text)). Qed.
Lemma datum_goodi ds vals : Forall2 (datum binary) ds vals -> goodi true ds \/ ~ goodi true ds.
Proof.
  intros F. destruct F as [|d v ds vals D F]; [left; exact I|]. destruct (in_dec (list_eq_dec Ascii.ascii_dec) [] ds) as [I|I].
  - right. intros [_ G]. apply goodi_tail in G. contradiction.
  - destruct D as [|s d Sd Pl|d Nd Ns]; [left; split; [auto|apply goodi_tail, I]|left; split; [eauto|apply goodi_tail, I]|right]. intros [[G|[t G]] _]; [contradiction|exact (Ns t G)].
Qed.
Lemma items_bad l ds vals : Forall2 (datum binary) ds vals -> ~ goodi true ds -> exists t, emits JSON (print_items l true ds) = t /\ ebad t /\ starts t.
Proof.
  intros F G. eexists. split; [reflexivity|]. destruct F as [|d v ds vals D F]; [exfalso; apply G; exact I|].
  assert (C : (d <> [] /\ forall s, ~ string_data s d) \/ (d = [] \/ exists t, string_data t d)) by (destruct D; [right|right|left]; eauto).
  destruct C as [[Nd Ns]|Gd].
  - cbn [print_items]. assert (is_string_data d = false) as ->. { destruct (is_string_data d) eqn:E; [|reflexivity]. apply (string_data_spec d Nd) in E as [s E]. exfalso. exact (Ns s E). }
    destruct d as [|x d]; [contradiction|]. rewrite emits_cons. cbn [emit]. unfold break. cbv iota. rewrite <- !app_assoc. change (B ",") with ([] ++ [","%char]). split.
    + apply ebad_app. apply ebad_value. apply vbad_char; [apply ws_nil|left; reflexivity].
    + apply starts_app. apply starts_char; [apply ws_nil|reflexivity..].
  - assert (In [] ds) as I. { destruct (in_dec (list_eq_dec Ascii.ascii_dec) [] ds) as [I|I]; [exact I|]. exfalso. apply G. split; [exact Gd|apply goodi_tail, I]. }
    assert (X : exists a b, ds = a ++ [] :: b /\ ~ In [] a).
    { clear - I. induction ds as [|x ds IH]; [destruct I|]. destruct (list_eq_dec Ascii.ascii_dec x []) as [->|N]; [exists [], ds; split; [reflexivity|intros []]|]. destruct I as [I|I]; [contradiction|].
      destruct (IH I) as (a & b & -> & Na). exists (x :: a), b. split; [reflexivity|]. intros [J|J]; [contradiction|auto]. }
    destruct X as (a & b & -> & Na). apply Forall2_app_inv_l in F as (va & vb & Fa & Fb & ->).
    change (d :: a ++ [] :: b) with ((d :: a) ++ [] :: b). rewrite print_items_app. rewrite emits_app.
    assert (E : elts_calls binary false (v :: va) (print_items l true (d :: a))) by (apply (items_good l (d :: a) true); [constructor; assumption|split; [exact Gd|apply goodi_tail, Na]]).
    destruct (elts_text _ _ _ E) as (s & Js & ->). cbn [comma app]. cbn [print_items]. rewrite emits_cons. cbn [emit]. unfold break, quoted. cbv iota. cbn [app].
    replace (s ++ LF :: (indent (l + 1) ++ [QUOTE; QUOTE]) ++ emits JSON (print_items l false b)) with ((s ++ (LF :: indent (l + 1)) ++ [QUOTE]) ++ QUOTE :: emits JSON (print_items l false b)).
    + split; [refine (ebad_app _ _ (ebad_quote (v :: va) _ _ Js _ _)); [discriminate|apply ws_line]|]. apply starts_app, starts_app. eapply starts_jes. exact Js.
    + repeat (rewrite <- !app_assoc; cbn [app]). reflexivity.
Qed.
(* the accessors on a stored record *)
Lemma stored_reads s seq flags gen owner ds : stored_as s seq flags gen owner ds ->
  exists v, vvalue_of s = Ok v /\ vvalue_seqnum v = Ok seq /\ vvalue_flags v = Ok flags /\ vvalue_gennum v = Ok gen /\ vvalue_owner v = Ok owner /\ vvalue_data v = Ok ds.
Proof.
  intros (G & h & Hh & E). destruct s as [b|v].
  - destruct E as (d & -> & ->). destruct (record_lemma seq flags gen owner [d] G) as (h' & Hh' & _ & v & Ev & R). rewrite Hh in Hh'. injection Hh' as <-. exists v. cbn [List.concat] in R. rewrite app_nil_r in R. split; [exact Ev|exact R].
  - subst v. destruct (record_lemma seq flags gen owner ds G) as (h' & Hh' & R & _). rewrite Hh in Hh'. injection Hh' as <-. eexists. split; [reflexivity|exact R].
Qed.
Lemma stored_same s seq flags gen owner ds seq' flags' gen' owner' ds' : stored_as s seq flags gen owner ds -> stored_as s seq' flags' gen' owner' ds' -> ds = ds'.
Proof. intros A B. destruct (stored_reads _ _ _ _ _ _ A) as (v & E & _ & _ & _ & _ & D). destruct (stored_reads _ _ _ _ _ _ B) as (v' & E' & _ & _ & _ & _ & D'). rewrite E in E'. injection E' as <-. rewrite D in D'. injection D' as <-. reflexivity. Qed.
Lemma separated_goodi s seq flags gen owner ds : stored_as s seq flags gen owner ds -> (separated s <-> match s with Scalar _ => True | Vector _ => goodi true ds end).
Proof.
  intros A. split.
  - intros H. specialize (H _ _ _ _ _ A). destruct s; [exact H|]. destruct ds as [|d ds]; [exact H|]. destruct H as [H1 H2]. split; [exact H1|apply goodi_tail, H2].
  - intros H seq' flags' gen' owner' ds' A'. rewrite <- (stored_same _ _ _ _ _ _ _ _ _ _ _ A A'). destruct s; [exact I|]. destruct ds as [|d ds]; [exact I|]. destruct H as [H1 H2]. split; [exact H1|apply goodi_tail, H2].
Qed.
Lemma vvalue_lemma s seq flags gen owner ds vals v name l : stored_as s seq flags gen owner ds -> vvalue_of s = Ok v -> Forall2 (datum binary) ds vals -> plain name ->
  exists os, print_vvalue v (is_vector s) name l = Ok os
    /\ (separated s -> flds_calls binary true [(name, value_json s vals)] os)
    /\ (~ separated s -> exists w t, emits JSON os = B "," ++ w ++ quoted name ++ B ":" ++ t /\ ws w /\ vbad t)
    /\ (separated s \/ ~ separated s).
Proof.
  intros A Ev F P. destruct (stored_reads _ _ _ _ _ _ A) as (v' & Ev' & _ & _ & _ & _ & D). rewrite Ev in Ev'. injection Ev' as <-. unfold print_vvalue. rewrite D. cbn [obind]. pose proof (separated_goodi _ _ _ _ _ _ A) as SG. destruct s as [b|v0]; cbn [is_vector value_json].
  - destruct A as (_ & h & _ & d & -> & _). inversion F as [|? x ? ? Dx F']; subst. inversion F'; subst. cbn [nth]. assert (Y : forall o, fld_calls binary true (name, x) [o] -> flds_calls binary true [(name, x)] [o]).
    { intros o Ho. change [o] with ([o] ++ []). constructor; [exact Ho|constructor]. }
    destruct Dx as [|s d Sd Pl|d Nd Ns].
    + eexists. split; [reflexivity|]. split; [intros _; apply Y; constructor; [exact P|intros c []]|]. tauto.
    + assert (Nd : d <> []) by (destruct Sd as [-> _]; destruct s; discriminate). rewrite (proj2 (string_data_spec d Nd)) by eauto. rewrite (string_data_last s d Sd). destruct d; [contradiction|]. eexists. split; [reflexivity|]. split; [intros _; apply Y; constructor; assumption|tauto].
    + assert (is_string_data d = false) as ->. { destruct (is_string_data d) eqn:E; [|reflexivity]. apply (string_data_spec d Nd) in E as [s E]. exfalso. exact (Ns s E). }
      destruct d; [contradiction|]. eexists. split; [reflexivity|]. split; [intros _; apply Y; constructor; assumption|tauto].
  - eexists. split; [reflexivity|]. split; [|split; [|destruct (datum_goodi ds vals F); [left|right]; tauto]].
    + intros G. apply SG in G. rewrite <- (app_nil_r (ArrStart l name true :: _)). constructor; [|constructor]. constructor; [exact P|]. apply (items_good l ds true vals F G).
    + intros G. assert (G' : ~ goodi true ds) by (clear - G SG; tauto). destruct (items_bad l ds vals F G') as (t & Et & Bt & St). exists (LF :: indent l), (B " " ++ B "[" ++ t ++ emits JSON [ArrEnd l]). split; [|split; [apply ws_line|]].
      * rewrite emits_cons, emits_app, Et. cbn [emit]. unfold break. cbv iota. rewrite <- !app_assoc. reflexivity.
      * replace (B " " ++ B "[" ++ t ++ emits JSON [ArrEnd l]) with ((B " " ++ B "[" ++ t) ++ emits JSON [ArrEnd l]) by (rewrite <- !app_assoc; reflexivity). apply vbad_app. apply vbad_array; [intros c [<-|[]]; reflexivity|exact Bt|].
        intros r. destruct (St r) as (c & u & E & E1 & _). eauto.
Qed.
(* a document with a list that goes wrong after some proper elements *)
Lemma list_bad n os1 js1 os2 t rest : plain n -> elts_calls binary false js1 os1 -> emits JSON os2 = (match js1 with [] => [] | _ => B "," end) ++ t -> vbad t -> starts t ->
  parse (emits JSON (DocStart 0 :: ArrStart 1 n false :: (os1 ++ os2) ++ rest)) = None.
Proof.
  intros P E E2 V St. destruct (elts_text _ _ _ E) as (s & Js & Es). rewrite !emits_cons, !emits_app, Es, E2. cbn [emit indent app]. unfold break. cbv iota. cbn [app].
  set (x := match js1 with [] => t | _ => s ++ B "," ++ t end).
  assert (Ex : (match js1 with [] => [] | _ => comma false ++ s end ++ match js1 with [] => [] | _ => B "," end ++ t) = x) by (unfold x; destruct js1; [reflexivity|cbn [comma app]; rewrite <- ?app_assoc; reflexivity]).
  rewrite Ex. set (r := emits JSON rest).
  assert (Eb : ebad x) by (apply ebad_more; [exact Js|apply ebad_value, V]).
  assert (Sx : starts x). { unfold x. destruct js1 as [|j js1]; [exact St|]. apply starts_app. eapply starts_jes. exact Js. }
  assert (Va : vbad (B " " ++ B "[" ++ x)). { apply vbad_array; [intros c [<-|[]]; reflexivity|exact Eb|]. intros q. destruct (Sx q) as (c & u & A & A1 & _). eauto. }
  assert (M : mbad ((LF :: indent 1) ++ quoted n ++ [] ++ B ":" ++ B " " ++ B "[" ++ x)) by (apply mbad_value; [apply ws_line|exact P|apply ws_nil|exact Va]).
  assert (O : vbad ([] ++ B "{" ++ (LF :: indent 1) ++ quoted n ++ [] ++ B ":" ++ B " " ++ B "[" ++ x)).
  { apply vbad_object; [apply ws_nil|exact M|]. intros q. assert (S1 : starts ((LF :: indent 1) ++ quoted n ++ [] ++ B ":" ++ B " " ++ B "[" ++ x)) by (rewrite app_assoc; apply starts_app, starts_quoted, ws_line). destruct (S1 q) as (c & u & A & _ & A1). eauto. }
  rewrite <- (vbad_parse _ r O). f_equal. unfold quoted. cbn [app B list_ascii_of_string]. repeat (rewrite <- !app_assoc; cbn [app]). reflexivity.
Qed.
