From Verif Require Import Base Tok_Model UtilStr_Model UbrKey_Model UbrKey_Spec UbrKey_Proofs UbrDb_Model UbrRec_Model UbrRec_Spec UbrRec_Proofs Base64_Model Fmt_Model Json_Spec Fmt_Spec Fmt_Proofs Fmt_Proofs2 Doc_Model Doc_Spec Doc_Proofs Doc_Proofs2.
Local Open Scope nat_scope.

Lemma plain_dec s : forallb plain_byte s = true -> plain s. Proof. intros H c I. apply (proj1 (forallb_forall _ _) H). exact I. Qed.
Lemma has_bit flags k : has flags (2 ^ k) = N.testbit flags k.
Proof.
  unfold has. destruct (N.testbit flags k) eqn:E.
  - apply negb_true_iff, N.eqb_neq. intros H. assert (X : N.testbit (N.land flags (2 ^ k)) k = true) by (rewrite N.land_spec, E, N.pow2_bits_true; reflexivity). rewrite H, N.bits_0 in X. discriminate X.
  - apply negb_false_iff, N.eqb_eq. apply N.bits_inj. intros m. rewrite N.land_spec, N.bits_0. destruct (N.eq_dec m k) as [->|N]; [rewrite E; reflexivity|]. rewrite N.pow2_bits_false by congruence. apply andb_false_r.
Qed.
Lemma flag_items flags l tab ks : Forall2 (fun p q => fst p = (2 ^ fst q)%N /\ snd p = snd q /\ plain (snd p)) tab ks ->
  forall c, elts_calls binary c (map JStr (map snd (filter (fun p => N.testbit flags (fst p)) ks))) (print_flag_items flags l c tab).
Proof.
  induction 1 as [|[v n] [k m] tab ks (E1 & E2 & P) F IH]; intros c; [constructor|]. cbn [fst snd] in *. subst. cbn [print_flag_items filter fst]. rewrite has_bit. destruct (N.testbit flags k); [|apply IH].
  cbn [map snd]. change (AStr l m c :: ?b) with ([AStr l m c] ++ b). constructor; [constructor; exact P|apply IH].
Qed.
Lemma flags_lemma flags l : flds_calls binary true [(B "flags", JArr (map JStr (flag_names flags)))] (print_flags flags l).
Proof.
  unfold print_flags. rewrite <- (app_nil_r (ArrStart _ _ _ :: _)). constructor; [|constructor]. constructor; [apply plain_dec; reflexivity|]. unfold flag_names. apply flag_items. unfold fl_tab.
  repeat (apply Forall2_cons; [split; [reflexivity|split; [reflexivity|apply plain_dec; reflexivity]]|]). apply Forall2_nil.
Qed.
Lemma flds_app c ms os ms' os' : flds_calls binary c ms os -> flds_calls binary (match ms with [] => c | _ => true end) ms' os' -> flds_calls binary c (ms ++ ms') (os ++ os').
Proof.
  intros F. revert ms' os'. induction F as [c|c m ms os os1 Fm Fs IH] using flds_calls_ind; intros ms' os' F'; [exact F'|]. cbn [app]. rewrite <- app_assoc. constructor; [exact Fm|]. apply IH. destruct ms; exact F'.
Qed.
Lemma flds_one c m o : fld_calls binary c m [o] -> flds_calls binary c [m] [o]. Proof. intros F. change [o] with ([o] ++ []). constructor; [exact F|constructor]. Qed.
Lemma without_sync_key pre key : In pre [[]; B ">"] -> match key with c :: _ => c <> ">"%char | [] => True end -> without_sync (pre ++ key) = key.
Proof.
  intros [<-|[<-|[]]] H; cbn [app].
  - unfold without_sync. destruct key as [|c k]; [reflexivity|]. destruct (Ascii.eqb_spec c C_SYNC) as [->|]; [exfalso; apply H; reflexivity|reflexivity].
  - reflexivity.
Qed.
Lemma udev_key key : ns_eqb (get_ns_from_key key) NS_UDEV = true -> in_udev key.
Proof.
  unfold get_ns_from_key, get_key_part. change (KEY_PART_NS =? KEY_PART_COUNT - 1) with false. cbn [KEY_PART_NS skip_parts].
  destruct (index JOIN key) as [i|] eqn:E1; [|discriminate]. destruct (index_cut _ _ E1) as [K1 N1]. set (k1 := skipn (i + 1) key) in *. destruct (index JOIN k1) as [j|] eqn:E2; [|discriminate]. destruct (index_cut _ _ E2) as [K2 N2].
  set (k2 := skipn (j + 1) k1) in *. cbv iota. destruct (index JOIN k2) as [m|] eqn:E3; [|discriminate]. destruct (index_cut _ _ E3) as [K3 _]. destruct (firstn m k2) as [|c [|c' x]]; [discriminate| |discriminate].
  intros H. assert (c = "U"%char) as ->. { destruct (Ascii.eqb_spec c "U") as [->|]; [reflexivity|]. destruct (Ascii.eqb c "D"), (Ascii.eqb c "M"), (Ascii.eqb c "X"), (Ascii.eqb c "G"); discriminate H. }
  exists (firstn i key), (firstn j k1), (skipn (m + 1) k2). split; [exact N1|]. split; [exact N2|]. rewrite K1 at 1. rewrite K2 at 1. rewrite K3 at 1. rewrite <- ?app_assoc. reflexivity.
Qed.
Lemma record_lemma_dump i c r j : record_shown binary i r j ->
  exists os, dump_record i c (without_sync (fst r)) (snd r) = Ok os /\ ns_eqb (get_ns_from_key (without_sync (fst r))) NS_UDEV && is_vector (snd r) = false
    /\ (separated (snd r) -> elt_calls binary c j os)
    /\ (~ separated (snd r) -> exists t, emits JSON os = comma c ++ t /\ vbad t /\ starts t)
    /\ (separated (snd r) \/ ~ separated (snd r)).
Proof.
  intros S. destruct S as [pre key s seq flags gen owner ds vals Ip Hk Pk Po U A F]. cbn [fst snd]. rewrite (without_sync_key pre key Ip Hk). unfold dump_record. destruct (stored_reads _ _ _ _ _ _ A) as (v & Ev & Es & Ef & Eg & Eo & D). rewrite Ev. cbn [obind]. rewrite Eg. cbn [obind]. rewrite Es. cbn [obind].
  rewrite Ef. cbn [obind]. rewrite Eo. cbn [obind]. clear Eo. assert (Pn : plain (if is_vector s then B "values" else B "value")) by (destruct s; apply plain_dec; reflexivity).
  destruct (vvalue_lemma s seq flags gen owner ds vals v _ 3 A Ev F Pn) as (os & -> & G & Bd & Dec). cbn [obind]. eexists. split; [reflexivity|]. split.
  { destruct (ns_eqb (get_ns_from_key key) NS_UDEV) eqn:E; [|reflexivity]. apply udev_key in E. specialize (U E). destruct s; [reflexivity|contradiction]. }
  set (ms0 := [(B "RECORD", JInt (Z.of_N i)); (B "key", JStr key); (B "gennum", JInt (Z.of_N gen)); (B "seqnum", JInt (Z.of_N seq))]).
  assert (F0 : flds_calls binary false ((ms0 ++ [(B "flags", JArr (map JStr (flag_names flags)))]) ++ [(B "owner", JStr owner)])
    (([FldUint 3 (B "RECORD") i false; FldStr 3 (B "key") key true; FldUint 3 (B "gennum") gen true; FldUint64 3 (B "seqnum") seq true] ++ print_flags flags 3) ++ [FldStr 3 (B "owner") owner true])).
  { apply flds_app; [apply flds_app|].
    - unfold ms0. change [FldUint 3 (B "RECORD") i false; FldStr 3 (B "key") key true; FldUint 3 (B "gennum") gen true; FldUint64 3 (B "seqnum") seq true] with
        ([FldUint 3 (B "RECORD") i false] ++ [FldStr 3 (B "key") key true] ++ [FldUint 3 (B "gennum") gen true] ++ [FldUint64 3 (B "seqnum") seq true] ++ []).
      repeat (constructor; [constructor; first [assumption|apply plain_dec; reflexivity]|]). constructor.
    - apply flags_lemma.
    - apply flds_one. constructor; [apply plain_dec; reflexivity|exact Po]. }
  set (os0 := ([FldUint 3 (B "RECORD") i false; FldStr 3 (B "key") key true; FldUint 3 (B "gennum") gen true; FldUint64 3 (B "seqnum") seq true] ++ print_flags flags 3) ++ [FldStr 3 (B "owner") owner true]) in *.
  match goal with |- (_ -> elt_calls _ _ _ ?o) /\ _ => assert (Eo : o = ElmStart 2 c :: (os0 ++ os) ++ [ElmEnd 2]) by (unfold os0; cbn [app]; rewrite <- !app_assoc; reflexivity); rewrite Eo; clear Eo end.
  split; [|split; [|exact Dec]].
  - intros Sp. match goal with |- elt_calls _ _ (JObj ?m) _ => replace m with (((ms0 ++ [(B "flags", JArr (map JStr (flag_names flags)))]) ++ [(B "owner", JStr owner)]) ++ [(if is_vector s then B "values" else B "value", value_json s vals)]) by (destruct s; reflexivity) end.
    constructor. apply flds_app; [exact F0|]. exact (G Sp).
  - intros Sp. destruct (Bd Sp) as (w & t & Et & W & Vt). destruct (flds_text _ _ _ F0) as (s0 & J0 & E0).
    exists ((LF :: indent 2) ++ B "{" ++ (s0 ++ B "," ++ w ++ quoted (if is_vector s then B "values" else B "value") ++ B ":" ++ t) ++ emits JSON [ElmEnd 2]). rewrite emits_cons, !emits_app, E0, Et. cbn [emit]. unfold break. fold (comma c).
    assert (M : mbad (s0 ++ B "," ++ w ++ quoted (if is_vector s then B "values" else B "value") ++ B ":" ++ t)).
    { pose proof (mbad_more _ _ _ J0 (mbad_value w (if is_vector s then B "values" else B "value") [] t W Pn ws_nil Vt)) as X. exact X. }
    split; [|split].
    + cbn [comma app]. repeat (rewrite <- !app_assoc; cbn [app]). reflexivity.
    + rewrite !app_assoc. apply vbad_app. rewrite <- !app_assoc. apply vbad_object; [apply ws_line|exact M|]. intros r. assert (Q : starts s0) by (unfold ms0 in J0; eapply starts_jms; exact J0).
      destruct (starts_app s0 (B "," ++ w ++ quoted (if is_vector s then B "values" else B "value") ++ B ":" ++ t) Q r) as (x & u & Y & _ & Y1). eauto.
    + rewrite app_assoc. apply starts_app. apply starts_char; [apply ws_line|reflexivity..].
Qed.
Lemma dump_lemma i rs js : records_shown binary i rs js -> forall c, c = negb (i =? 0)%N ->
  exists os, dump_records i rs = Ok (Some os)
    /\ (Forall (fun r => separated (snd r)) rs -> elts_calls binary c js os)
    /\ (~ Forall (fun r => separated (snd r)) rs -> exists js1 os1 os2 rest t, os = (os1 ++ os2) ++ rest /\ elts_calls binary c js1 os1 /\ emits JSON os2 = comma (match js1 with [] => c | _ => true end) ++ t /\ vbad t /\ starts t)
    /\ (Forall (fun r => separated (snd r)) rs \/ ~ Forall (fun r => separated (snd r)) rs).
Proof.
  induction 1 as [i|i r rs j js R Rs IH]; intros c Ec.
  - exists []. split; [reflexivity|]. split; [constructor|]. split; [intros N; exfalso; apply N; constructor|left; constructor].
  - destruct r as [key s]. cbn [dump_records]. destruct (record_lemma_dump i c (key, s) j R) as (os & E & U & G & Bd & Dec). cbn [fst snd] in E, U, G, Bd, Dec. rewrite U. cbv iota. rewrite <- Ec, E. cbn [obind].
    destruct (IH true ltac:(destruct (N.eqb_spec (i + 1) 0); [lia|reflexivity])) as (os' & E' & G' & Bd' & Dec'). rewrite E'. cbn [obind]. eexists. split; [reflexivity|]. split; [|split].
    + intros F. inversion F as [|? ? F1 F2]; subst. constructor; [apply G, F1|apply G', F2].
    + intros N. destruct Dec as [Sp|Sp].
      * assert (N' : ~ Forall (fun r => separated (snd r)) rs) by (intros F; apply N; constructor; assumption). destruct (Bd' N') as (js1 & os1 & os2 & rest & t & -> & C & T & V & St).
        exists (j :: js1), (os ++ os1), os2, rest, t. split; [rewrite !app_assoc; reflexivity|]. split; [constructor; [apply G, Sp|exact C]|]. split; [|auto]. rewrite T. destruct js1; reflexivity.
      * destruct (Bd Sp) as (t & T & V & St). exists [], [], os, os', t. split; [reflexivity|]. split; [constructor|]. auto.
    + destruct Dec as [Sp|Sp]; [|right; intros F; apply Sp; inversion F; assumption]. destruct Dec' as [F|F]; [left; constructor; assumption|right; intros F'; apply F; inversion F'; assumption].
Qed.
Lemma dump_theorem rs js : records_shown binary 0 rs js -> exists os t, dump rs = Ok (Some os) /\ emits JSON os = t ++ [NUL] /\ (parse t = Some (JObj [(B "siddb", JArr js)]) <-> Forall (fun r => separated (snd r)) rs)
  /\ (~ Forall (fun r => separated (snd r)) rs -> parse t = None).
Proof.
  intros R. destruct (dump_lemma 0 rs js R false eq_refl) as (os & E & G & Bd & Dec). unfold dump. rewrite E. cbn [obind]. exists (DocStart 0 :: ArrStart 1 (B "siddb") false :: os ++ [ArrEnd 1; DocEnd 0; NullByte]), (emits JSON (DocStart 0 :: ArrStart 1 (B "siddb") false :: os ++ [ArrEnd 1; DocEnd 0])).
  split; [reflexivity|]. split.
  { change [ArrEnd 1; DocEnd 0; NullByte] with ([ArrEnd 1; DocEnd 0] ++ [NullByte]). rewrite app_assoc, !app_comm_cons, emits_app. reflexivity. }
  assert (P : Forall (fun r => separated (snd r)) rs -> parse (emits JSON (DocStart 0 :: ArrStart 1 (B "siddb") false :: os ++ [ArrEnd 1; DocEnd 0])) = Some (JObj [(B "siddb", JArr js)])).
  { intros F. apply parse_doc. replace (ArrStart 1 (B "siddb") false :: os ++ [ArrEnd 1; DocEnd 0]) with (((ArrStart 1 (B "siddb") false :: os ++ [ArrEnd 1]) ++ []) ++ [DocEnd 0]) by (rewrite app_nil_r; cbn [app]; rewrite <- app_assoc; reflexivity).
    constructor. constructor; [|constructor]. constructor; [apply plain_dec; reflexivity|exact (G F)]. }
  assert (N : ~ Forall (fun r => separated (snd r)) rs -> parse (emits JSON (DocStart 0 :: ArrStart 1 (B "siddb") false :: os ++ [ArrEnd 1; DocEnd 0])) = None).
  { intros F. destruct (Bd F) as (js1 & os1 & os2 & rest & t & -> & C & T & V & St). rewrite <- app_assoc. apply (list_bad (B "siddb") os1 js1 os2 t); [apply plain_dec; reflexivity|exact C| |exact V|exact St]. rewrite T. destruct js1; reflexivity. }
  split; [|exact N]. split; [|exact P]. intros H. destruct Dec as [D|D]; [exact D|]. rewrite (N D) in H. discriminate H.
Qed.

(* the resource tree *)
Scheme tree_ind' := Induction for tree_shown Sort Prop with trees_ind' := Induction for trees_shown Sort Prop.
Combined Scheme trees_all from tree_ind', trees_ind'.
Definition children_write (level : nat) := fix go (first : bool) (l : list rtree) : list op := match l with [] => [] | c :: l => tree_write (level + 2) (negb first) c ++ go false l end.
Lemma tree_write_eq level c id type es pid flags prio refs children : tree_write level c (RTree id type es pid flags prio refs children) =
  [ElmStart level c] ++ write_fields (level + 1) id type es pid flags prio refs ++ match children with [] => [] | _ => ArrStart (level + 1) (B "children") true :: children_write level true children ++ [ArrEnd (level + 1)] end ++ [ElmEnd level].
Proof. reflexivity. Qed.
Lemma es_lemma level es : (forall n a b, In (n, a, b) es -> plain n) -> forall first,
  elts_calls binary (negb first) (map (fun '(n, a, b) => JObj [(B "name", JStr n); (B "events_max", JInt (Z.of_N a)); (B "events_fired", JInt (Z.of_N b))]) es) (write_es level first es).
Proof.
  induction es as [|[[n a] b] es IH]; intros P first; [constructor|]. cbn [map write_es].
  constructor; [|apply (IH ltac:(intros; eapply P; right; eassumption) false)].
  change [ElmStart (level + 1) (negb first); FldStr (level + 2) (B "name") n false; FldUint64 (level + 2) (B "events_max") a true; FldUint64 (level + 2) (B "events_fired") b true; ElmEnd (level + 1)] with
    (ElmStart (level + 1) (negb first) :: ([FldStr (level + 2) (B "name") n false] ++ [FldUint64 (level + 2) (B "events_max") a true] ++ [FldUint64 (level + 2) (B "events_fired") b true] ++ []) ++ [ElmEnd (level + 1)]).
  constructor. repeat (constructor; [constructor; first [apply plain_dec; reflexivity|eapply P; left; reflexivity]|]). constructor.
Qed.
Lemma trees_lemma : (forall t j, tree_shown t j -> forall l c, elt_calls binary c j (tree_write l c t)) /\ (forall ts js, trees_shown ts js -> forall l first, elts_calls binary (negb first) js (children_write l first ts)).
Proof.
  apply trees_all.
  - intros id type es pid flags prio refs children js Pi Pt Pe T IH l c. rewrite tree_write_eq. unfold write_fields.
    match goal with |- elt_calls _ _ (JObj ?m) ([ElmStart l c] ++ ?o) => enough (X : exists os, o = os ++ [ElmEnd l] /\ flds_calls binary false m os) by (destruct X as (os & -> & X); exact (E_elm binary c l l m os X)) end.
    eexists. split; [rewrite app_assoc; reflexivity|]. rewrite <- !app_assoc.
    apply flds_app; [apply flds_one; constructor; [apply plain_dec; reflexivity|exact Pi]|].
    apply flds_app; [destruct type as [t|]; [apply flds_one; constructor; [apply plain_dec; reflexivity|exact Pt]|constructor]|].
    assert (R : flds_calls binary true ((if match es with [] => true | _ => false end then [] else
          [(B "event-sources", JArr (map (fun '(n, a, b) => JObj [(B "name", JStr n); (B "events_max", JInt (Z.of_N a)); (B "events_fired", JInt (Z.of_N b))]) (rev es)))])
      ++ [(B "pid-created", JInt (Z.of_N pid)); (B "flags", JInt (Z.of_N flags)); (B "prio", JInt prio); (B "ref-count", JInt (Z.of_N refs))]
      ++ (if match children with [] => true | _ => false end then [] else [(B "children", JArr js)]))
      (match es with [] => [] | _ => ArrStart (l + 1) (B "event-sources") true :: write_es (l + 1) true (rev es) ++ [ArrEnd (l + 1)] end
       ++ [FldUint (l + 1) (B "pid-created") pid true; FldUint (l + 1) (B "flags") flags true; FldInt64 (l + 1) (B "prio") prio true; FldUint (l + 1) (B "ref-count") refs true]
       ++ match children with [] => [] | _ => ArrStart (l + 1) (B "children") true :: children_write l true children ++ [ArrEnd (l + 1)] end)).
    { apply flds_app.
      - destruct es as [|e es]; [constructor|]. rewrite <- (app_nil_r (ArrStart _ _ _ :: _)). constructor; [|constructor]. constructor; [apply plain_dec; reflexivity|]. apply (es_lemma (l + 1) (rev (e :: es)) ltac:(intros n a b I; apply in_rev in I; eapply Pe; exact I) true).
      - match goal with |- flds_calls _ ?c _ _ => replace c with true by (destruct es; reflexivity) end. apply flds_app.
        + change [FldUint (l + 1) (B "pid-created") pid true; FldUint (l + 1) (B "flags") flags true; FldInt64 (l + 1) (B "prio") prio true; FldUint (l + 1) (B "ref-count") refs true] with
            ([FldUint (l + 1) (B "pid-created") pid true] ++ [FldUint (l + 1) (B "flags") flags true] ++ [FldInt64 (l + 1) (B "prio") prio true] ++ [FldUint (l + 1) (B "ref-count") refs true] ++ []).
          repeat (constructor; [constructor; apply plain_dec; reflexivity|]). constructor.
        + destruct children as [|t ts]; [constructor|]. rewrite <- (app_nil_r (ArrStart _ _ _ :: _)). constructor; [|constructor]. constructor; [apply plain_dec; reflexivity|]. apply (IH l true). }
    destruct type; exact R.
  - intros l first. constructor.
  - intros t ts j js T IHt Ts IHs l first. cbn [children_write]. constructor; [apply IHt|]. apply (IHs l false).
Qed.
Lemma resources_lemma main worker j1 j2 : tree_shown main j1 -> tree_shown worker j2 ->
  exists t, emits JSON (resources main worker) = t ++ [NUL] /\ parse t = Some (JObj [(B "sidresources", JArr [j1; j2])]).
Proof.
  intros T1 T2. exists (emits JSON (ElmStart 0 false :: ((ArrStart 1 (B "sidresources") false :: (tree_write 2 false main ++ tree_write 2 true worker ++ []) ++ [ArrEnd 1]) ++ []) ++ [ElmEnd 0])). split.
  - unfold resources. change [NUL] with (emits JSON [NullByte]). rewrite <- emits_app. f_equal. rewrite !app_nil_r. cbn [app]. rewrite <- !app_assoc. reflexivity.
  - apply parse_doc. constructor. constructor; [|constructor]. constructor; [apply plain_dec; reflexivity|]. constructor; [apply trees_lemma, T1|]. constructor; [apply trees_lemma, T2|constructor].
Qed.
