From Verif Require Import Base UtilStr_Model UbrKey_Model UbrKey_Proofs UbrDb_Model UbrRec_Model UbrRec_Spec UbrRec_Proofs Base64_Model Fmt_Model Json_Spec Fmt_Spec Fmt_Proofs Fmt_Proofs2 Doc_Model Doc_Spec Doc_Proofs Doc_Proofs2 Doc_Proofs3 Doc_Proofs4.
Local Open Scope nat_scope.

Lemma dump_good : exists b64, (forall v, base64_text v (b64 v)) /\ forall rs js, records_shown b64 0 rs js -> Forall (fun r => separated (snd r)) rs ->
  exists os t, dump rs = Ok (Some os) /\ emits JSON os = t ++ [NUL] /\ parse t = Some (JObj [(B "siddb", JArr js)]).
Proof. exists binary. split; [exact binary_text|]. intros rs js R F. destruct (dump_theorem rs js R) as (os & t & E & T & P & _). exists os, t. split; [exact E|]. split; [exact T|]. apply P, F. Qed.
Lemma dump_bad : exists b64, (forall v, base64_text v (b64 v)) /\ forall rs js, records_shown b64 0 rs js -> ~ Forall (fun r => separated (snd r)) rs ->
  exists os t, dump rs = Ok (Some os) /\ emits JSON os = t ++ [NUL] /\ parse t = None.
Proof. exists binary. split; [exact binary_text|]. intros rs js R F. destruct (dump_theorem rs js R) as (os & t & E & T & _ & P). exists os, t. split; [exact E|]. split; [exact T|]. apply P, F. Qed.
Lemma devices_good : exists b64, (forall v, base64_text v (b64 v)) /\ forall rs js, devices_shown b64 None rs js -> groups_separated rs -> ~ begins_with_state rs ->
  exists os t, devices rs = Ok os /\ emits JSON os = t ++ [NUL] /\ parse t = Some (JObj [(B "siddevices", JArr js)]).
Proof. exists binary. split; [exact binary_text|]. intros rs js R F F'. destruct (devices_theorem rs js R) as (os & t & E & T & P & _). exists os, t. split; [exact E|]. split; [exact T|]. apply P. auto. Qed.
Lemma devices_bad : exists b64, (forall v, base64_text v (b64 v)) /\ forall rs js, devices_shown b64 None rs js -> ~ groups_separated rs \/ begins_with_state rs ->
  exists os t, devices rs = Ok os /\ emits JSON os = t ++ [NUL] /\ parse t = None.
Proof. exists binary. split; [exact binary_text|]. intros rs js R F. destruct (devices_theorem rs js R) as (os & t & E & T & _ & P). exists os, t. split; [exact E|]. split; [exact T|]. apply P. tauto. Qed.
(* documents of numbers only *)
Definition num_ops (l : list (bool * bytes * N)) (c : bool) : list op := map (fun '(w, n, v) => if w : bool then FldUint64 1 n v c else FldUint 1 n v c) l.
Lemma num_flds l : forallb (fun '(_, n, _) => forallb plain_byte n) l = true -> flds_calls binary true (map (fun '(_, n, v) => (n, JInt (Z.of_N v))) l) (num_ops l true).
Proof.
  induction l as [|[[w n] v] l IH]; intros H; [constructor|]. cbn [forallb] in H. apply andb_true_iff in H as [H1 H2]. cbn [map num_ops].
  match goal with |- flds_calls _ _ _ (?o :: ?r) => change (o :: r) with ([o] ++ r) end. constructor; [|exact (IH H2)]. destruct w; constructor; apply plain_dec, H1.
Qed.
Lemma num_doc w n v l : forallb (fun '(_, n, _) => forallb plain_byte n) ((w, n, v) :: l) = true ->
  parse (emits JSON (DocStart 0 :: (num_ops [(w, n, v)] false ++ num_ops l true) ++ [DocEnd 0])) = Some (JObj (map (fun '(_, n, v) => (n, JInt (Z.of_N v))) ((w, n, v) :: l))).
Proof. intros H. apply parse_doc. constructor. cbn [forallb] in H. apply andb_true_iff in H as [H1 H2]. cbn [map num_ops]. constructor; [destruct w; constructor; apply plain_dec, H1|apply num_flds, H2]. Qed.
Lemma version_lemma : forall protocol major minor release, exists t, emits JSON (version protocol major minor release) = t ++ [NUL]
  /\ parse t = Some (JObj [(B "SID_IFC_PROTOCOL", JInt (Z.of_N protocol)); (B "SID_MAJOR", JInt (Z.of_N major)); (B "SID_MINOR", JInt (Z.of_N minor)); (B "SID_RELEASE", JInt (Z.of_N release))]).
Proof.
  intros p a b c. eexists. split; [|exact (num_doc false (B "SID_IFC_PROTOCOL") p [(false, B "SID_MAJOR", a); (false, B "SID_MINOR", b); (false, B "SID_RELEASE", c)] eq_refl)].
  change [NUL] with (emits JSON [NullByte]). rewrite <- emits_app. reflexivity.
Qed.
Lemma dbstats_lemma : forall keys int int_data ext ext_data meta pairs, exists t, emits JSON (dbstats keys int int_data ext ext_data meta pairs) = t ++ [NUL]
  /\ parse t = Some (JObj [(B "KEYS_SIZE", JInt (Z.of_N keys)); (B "VALUES_INTERNAL_SIZE", JInt (Z.of_N int)); (B "VALUES_INTERNAL_DATA_SIZE", JInt (Z.of_N int_data)); (B "VALUES_EXTERNAL_SIZE", JInt (Z.of_N ext));
       (B "VALUES_EXTERNAL_DATA_SIZE", JInt (Z.of_N ext_data)); (B "METADATA_SIZE", JInt (Z.of_N meta)); (B "NR_KEY_VALUE_PAIRS", JInt (Z.of_N pairs))]).
Proof.
  intros a b c d e f g. eexists. split; [|exact (num_doc true (B "KEYS_SIZE") a [(true, B "VALUES_INTERNAL_SIZE", b); (true, B "VALUES_INTERNAL_DATA_SIZE", c); (true, B "VALUES_EXTERNAL_SIZE", d); (true, B "VALUES_EXTERNAL_DATA_SIZE", e); (true, B "METADATA_SIZE", f); (false, B "NR_KEY_VALUE_PAIRS", g)] eq_refl)].
  change [NUL] with (emits JSON [NullByte]). rewrite <- emits_app. reflexivity.
Qed.
(* for the examples *)
Lemma string_data_dec s d : d = s ++ [NUL] -> forallb isprint s = true -> string_data s d.
Proof. intros E H. split; [exact E|]. intros c I. apply (proj1 (forallb_forall _ _) H) in I. unfold isprint in I. lia. Qed.
Lemma not_string c : byteN c <> 0%N -> forall s, ~ string_data s [c].
Proof. intros N s [E _]. destruct s as [|a [|]]; cbn in E; try discriminate E. injection E as ->. apply N. reflexivity. Qed.
Lemma separated_strings seq flags gen owner v ts : stored_as (Vector v) seq flags gen owner (map (fun t => t ++ [NUL]) ts) -> forallb (forallb isprint) ts = true -> separated (Vector v).
Proof.
  intros A H seq' flags' gen' owner' ds A'. rewrite <- (stored_same _ _ _ _ _ _ _ _ _ _ _ A A'). destruct ts as [|t ts]; [exact I|]. cbn [forallb] in H. apply andb_true_iff in H as [H1 H2]. cbn [map]. split; [right; exists t; apply string_data_dec; [reflexivity|exact H1]|].
  intros I. apply in_map_iff in I as (x & E & _). destruct x; discriminate E.
Qed.
Lemma dev_key_inj devid cat id core devid' cat' id' core' : dev_key devid cat id core = dev_key devid' cat' id' core' ->
  ~ In ":"%char devid -> ~ In ":"%char cat -> ~ In ":"%char id -> ~ In ":"%char devid' -> ~ In ":"%char cat' -> ~ In ":"%char id' -> core = core'.
Proof. intros E A1 A2 A3 B1 B2 B3. pose proof (dev_key_core devid cat id core A1 A2 A3) as H. rewrite E, (dev_key_core _ _ _ _ B1 B2 B3) in H. congruence. Qed.
