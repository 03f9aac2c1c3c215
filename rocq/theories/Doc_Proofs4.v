From Verif Require Import Base Tok_Model UtilStr_Model UbrKey_Model UbrKey_Spec UbrKey_Proofs UbrDb_Model UbrPerm_Proofs UbrRec_Model UbrRec_Spec UbrRec_Proofs UbrStack_Model Base64_Model Fmt_Model Json_Spec Fmt_Spec Fmt_Proofs Fmt_Proofs2 Doc_Model Doc_Spec Doc_Proofs Doc_Proofs2 Doc_Proofs3.
Local Open Scope nat_scope.

Lemma skip_join a t n : ~ In ":"%char a -> skip_parts (S n) (a ++ ":"%char :: t) = skip_parts n t.
Proof. intros H. cbn [skip_parts]. change (index JOIN (a ++ ":"%char :: t)) with (index JOIN (a ++ JOIN :: t)). rewrite (index_join a t H). f_equal. change (":"%char :: t) with ([":"%char] ++ t). rewrite app_assoc. apply skipn_app_len. rewrite app_length. cbn [length]. lia. Qed.
Lemma dev_key_devid devid cat id core : ~ In ":"%char devid -> length devid <= 36 -> devid_of (dev_key devid cat id core) = Some devid.
Proof.
  intros N L. unfold devid_of, get_key_part, dev_key. change (KEY_PART_NS_PART =? KEY_PART_COUNT - 1) with false. unfold KEY_PART_NS_PART. cbn [B list_ascii_of_string app].
  change (":"%char :: ":"%char :: ?x) with ([] ++ ":"%char :: [] ++ ":"%char :: x). rewrite !skip_join by (intros []). change ("D"%char :: ":"%char :: ?x) with (["D"%char] ++ ":"%char :: x). rewrite skip_join by (intros [H|[]]; discriminate H). cbn [skip_parts].
  match goal with |- context [index JOIN (devid ++ ?x :: ?y)] => change (index JOIN (devid ++ x :: y)) with (index JOIN (devid ++ JOIN :: y)) end. rewrite (index_join devid _ N). cbv iota. rewrite firstn_app_len by reflexivity. destruct (Nat.ltb_spec (length devid) UUID_STR_SIZE); [reflexivity|unfold UUID_STR_SIZE in *; lia].
Qed.
Lemma dev_key_core devid cat id core : ~ In ":"%char devid -> ~ In ":"%char cat -> ~ In ":"%char id -> get_key_part_rest (dev_key devid cat id core) KEY_PART_CORE = Some core.
Proof.
  intros N1 N2 N3. unfold get_key_part_rest, dev_key. unfold KEY_PART_CORE. cbn [B list_ascii_of_string app].
  change (":"%char :: ":"%char :: ?x) with ([] ++ ":"%char :: [] ++ ":"%char :: x). rewrite !skip_join by (intros []). change ("D"%char :: ":"%char :: ?x) with (["D"%char] ++ ":"%char :: x). rewrite skip_join by (intros [H|[]]; discriminate H).
  rewrite !skip_join by assumption. reflexivity.
Qed.
Definition okr (r : bytes * stored) : Prop := match get_key_part_rest (fst r) KEY_PART_CORE with Some core => In core [B "#GIN"; B "#GMB"] -> separated (snd r) | None => True end.
Definition is_state (core : bytes) : bool := key_eqb core (B "#RDY") || key_eqb core (B "#RES").
Lemma state_value tab s b seq flags gen owner n name : s = Scalar b -> stored_as s seq flags gen owner [le 4 n] -> (length tab < 16) -> nth_error tab (N.to_nat n) = Some name -> sval_to_str tab s = Ok name.
Proof.
  intros -> (G & h & Hh & d & E & ->) L Hn. assert (d = le 4 n) by congruence; subst d. unfold sval_to_str. destruct (offset_ok seq flags gen owner [le 4 n] h G Hh) as (off & Eo & Es & _). rewrite Eo. cbn [obind]. rewrite Es. cbn [List.concat]. rewrite app_nil_r.
  assert (Ln : N.to_nat n < length tab) by (apply nth_error_Some; rewrite Hn; discriminate). unfold number_at. rewrite le_length. cbn [Nat.leb]. rewrite firstn_all2 by (rewrite le_length; lia). rewrite unle4 by (change (2 ^ 32)%N with 4294967296%N; lia). cbn [obind]. rewrite Hn. reflexivity.
Qed.
Lemma nth_plain tab n name : forallb (forallb plain_byte) tab = true -> nth_error tab n = Some name -> plain name.
Proof. intros H E. apply plain_dec. apply nth_error_In in E. apply (proj1 (forallb_forall _ _) H). exact E. Qed.
(* one record of a device *)
Lemma field_lemma core s fs : field_shown binary core s fs -> exists os, dev_field true core s = Ok os
  /\ ((In core [B "#GIN"; B "#GMB"] -> separated s) -> flds_calls binary true fs os)
  /\ (~ (In core [B "#GIN"; B "#GMB"] -> separated s) -> exists w n t, emits JSON os = B "," ++ w ++ quoted n ++ B ":" ++ t /\ ws w /\ plain n /\ vbad t)
  /\ ((In core [B "#GIN"; B "#GMB"] -> separated s) \/ ~ (In core [B "#GIN"; B "#GMB"] -> separated s))
  /\ (is_state core = false -> dev_field false core s = Ok os)
  /\ (is_state core = true -> exists n x, dev_field false core s = Ok [FldStr 3 n x false]).
Proof.
  intros F. destruct F as [s seq flags gen owner ds vals Ic A Al F|b seq flags gen owner n name -> A Hn|b seq flags gen owner n name -> A Hn|s N].
  - assert (Ek : key_eqb core K_IN || key_eqb core K_MEMBERS = true) by (destruct Ic as [<-|[<-|[]]]; reflexivity). assert (Es : is_state core = false) by (destruct Ic as [<-|[<-|[]]]; reflexivity).
    unfold dev_field. rewrite Ek. destruct (stored_reads _ _ _ _ _ _ A) as (v & Ev & _ & Ef & _). rewrite Ev. cbn [obind]. rewrite Ef. cbn [obind].
    assert (negb (is_vector s) && has flags FL_ALIGN = false) as ->. { destruct s; [|reflexivity]. change FL_ALIGN with (2 ^ 0)%N. rewrite has_bit, Al. reflexivity. }
    assert (Pc : plain core) by (destruct Ic as [<-|[<-|[]]]; apply plain_dec; reflexivity).
    destruct (vvalue_lemma s seq flags gen owner ds vals v core 3 A Ev F Pc) as (os & -> & G & Bd & Dec). exists os. split; [reflexivity|]. split; [intros Sp; apply G, Sp, Ic|]. split; [|split; [destruct Dec; [left|right]; tauto|split; [reflexivity|rewrite Es; discriminate]]].
    intros Sp. destruct (Bd ltac:(tauto)) as (w & t & E & W & V). exists w, core, t. auto.
  - unfold dev_field. change (key_eqb (B "#RDY") K_IN || key_eqb (B "#RDY") K_MEMBERS) with false. change (key_eqb (B "#RDY") K_READY) with true. cbv iota.
    rewrite (state_value dev_ready_str _ _ _ _ _ _ n name eq_refl A ltac:(cbn; lia) Hn). cbn [obind]. eexists. split; [reflexivity|].
    split; [intros _; apply flds_one; apply (F_str binary true 3 (B "#RDY") name); [apply plain_dec; reflexivity|eapply nth_plain; [|exact Hn]; reflexivity]|].
    assert (T : In (B "#RDY") [B "#GIN"; B "#GMB"] -> separated (Scalar b)) by (intros [H|[H|[]]]; discriminate H). split; [tauto|]. split; [tauto|]. split; [discriminate|]. intros _. eauto.
  - unfold dev_field. change (key_eqb (B "#RES") K_IN || key_eqb (B "#RES") K_MEMBERS) with false. change (key_eqb (B "#RES") K_READY) with false. change (key_eqb (B "#RES") K_RESERVED) with true. cbv iota.
    rewrite (state_value dev_reserved_str _ _ _ _ _ _ n name eq_refl A ltac:(cbn; lia) Hn). cbn [obind]. eexists. split; [reflexivity|].
    split; [intros _; apply flds_one; apply (F_str binary true 3 (B "#RES") name); [apply plain_dec; reflexivity|eapply nth_plain; [|exact Hn]; reflexivity]|].
    assert (T : In (B "#RES") [B "#GIN"; B "#GMB"] -> separated (Scalar b)) by (intros [H|[H|[]]]; discriminate H). split; [tauto|]. split; [tauto|]. split; [discriminate|]. intros _. eauto.
  - assert (T : forall k, In k [B "#GIN"; B "#GMB"; B "#RDY"; B "#RES"] -> key_eqb core k = false) by (intros k Ik; destruct (key_eqb_spec core k) as [->|]; [contradiction|reflexivity]).
    unfold dev_field, is_state. change K_IN with (B "#GIN"). change K_MEMBERS with (B "#GMB"). change K_READY with (B "#RDY"). change K_RESERVED with (B "#RES"). rewrite !T by (cbn; tauto). cbn [orb]. eexists. split; [reflexivity|]. split; [intros _; constructor|].
    assert (T' : In core [B "#GIN"; B "#GMB"] -> separated s) by (intros H; exfalso; apply N; cbn in *; tauto). split; [tauto|]. split; [tauto|]. split; [reflexivity|discriminate].
Qed.
Lemma fields_lemma devid rs fs : ~ In ":"%char devid -> length devid <= 36 -> dev_records binary devid rs fs -> forall rest os_rest, devices_loop devid true rest = Ok os_rest ->
  exists os, devices_loop devid true (rs ++ rest) = Ok (os ++ os_rest) /\ (Forall okr rs -> flds_calls binary true fs os)
    /\ (~ Forall okr rs -> exists fs1 os1 os2 more w n t, os = (os1 ++ os2) ++ more /\ flds_calls binary true fs1 os1 /\ emits JSON os2 = B "," ++ w ++ quoted n ++ B ":" ++ t /\ ws w /\ plain n /\ vbad t)
    /\ (Forall okr rs \/ ~ Forall okr rs).
Proof.
  intros Nd Ld D. induction D as [|cat id core s rs fs fs' Nc Ni F D IH]; intros rest os_rest Er.
  - exists []. split; [exact Er|]. split; [constructor|]. split; [intros N; exfalso; apply N; constructor|left; constructor].
  - cbn [app devices_loop]. rewrite (dev_key_devid _ _ _ _ Nd Ld), (dev_key_core _ _ _ _ Nd Nc Ni). rewrite key_eqb_refl. destruct (field_lemma core s fs F) as (os & E & G & Bd & Dec & _). rewrite E. cbn [obind].
    destruct (IH rest os_rest Er) as (os' & E' & G' & Bd' & Dec'). rewrite E'. cbn [obind app]. exists (os ++ os'). split; [rewrite <- app_assoc; reflexivity|].
    assert (Ok1 : okr (dev_key devid cat id core, s) <-> (In core [B "#GIN"; B "#GMB"] -> separated s)) by (unfold okr; cbn [fst snd]; rewrite (dev_key_core _ _ _ _ Nd Nc Ni); tauto).
    split; [|split].
    + intros H. inversion H as [|? ? H1 H2]; subst. apply flds_app; [apply G, Ok1, H1|]. destruct fs; apply G', H2.
    + intros H. destruct Dec as [Sp|Sp].
      * assert (N' : ~ Forall okr rs) by (intros H'; apply H; constructor; [apply Ok1, Sp|exact H']). destruct (Bd' N') as (fs1 & os1 & os2 & more & w & n & t & -> & C & T & R).
        exists (fs ++ fs1), (os ++ os1), os2, more, w, n, t. split; [rewrite !app_assoc; reflexivity|]. split; [|auto]. apply flds_app; [apply G, Sp|]. destruct fs; exact C.
      * destruct (Bd Sp) as (w & n & t & T & R). exists [], [], os, os', w, n, t. split; [reflexivity|]. split; [constructor|auto].
    + destruct Dec as [Sp|Sp]; [|right; intros H; apply Sp, Ok1; inversion H; assumption]. destruct Dec' as [H|H]; [left; constructor; [apply Ok1, Sp|exact H]|right; intros H'; apply H; inversion H'; assumption].
Qed.
(* an entry that goes wrong *)
Lemma entry_bad c devid fs1 os1 os2 more w n t : plain devid -> flds_calls binary true fs1 os1 -> emits JSON os2 = B "," ++ w ++ quoted n ++ B ":" ++ t -> ws w -> plain n -> vbad t ->
  exists x, emits JSON (ElmStart 2 c :: FldStr 3 (B "DEVID") devid false :: ((os1 ++ os2) ++ more) ++ [ElmEnd 2]) = comma c ++ x /\ vbad x /\ starts x.
Proof.
  intros Pd F E2 W Pn V. assert (F0 : flds_calls binary false ([(B "DEVID", JStr devid)] ++ fs1) ([FldStr 3 (B "DEVID") devid false] ++ os1)).
  { apply flds_app; [apply flds_one; constructor; [apply plain_dec; reflexivity|exact Pd]|exact F]. }
  destruct (flds_text _ _ _ F0) as (s0 & J0 & E0). cbn [app] in E0. set (y := s0 ++ B "," ++ w ++ quoted n ++ B ":" ++ t).
  assert (M : mbad y) by exact (mbad_more _ _ _ J0 (mbad_value w n [] t W Pn ws_nil V)).
  assert (Sy : starts y) by (apply starts_app; eapply starts_jms; exact J0).
  exists (((LF :: indent 2) ++ B "{" ++ y) ++ emits JSON (more ++ [ElmEnd 2])). split; [|split].
  - replace (FldStr 3 (B "DEVID") devid false :: ((os1 ++ os2) ++ more) ++ [ElmEnd 2]) with ((FldStr 3 (B "DEVID") devid false :: os1) ++ os2 ++ more ++ [ElmEnd 2]) by (cbn [app]; rewrite <- !app_assoc; reflexivity).
    rewrite emits_cons, (emits_app JSON (FldStr 3 (B "DEVID") devid false :: os1)), (emits_app JSON os2), E0, E2. cbn [emit]. unfold break. fold (comma c). unfold y. cbn [comma app]. repeat (rewrite <- !app_assoc; cbn [app]). reflexivity.
  - apply vbad_app, vbad_object; [apply ws_line|exact M|]. intros r. destruct (Sy r) as (a & u & A & _ & A1). eauto.
  - rewrite <- app_assoc. rewrite app_assoc. apply starts_app. rewrite app_assoc. apply starts_app. apply starts_char; [apply ws_line|reflexivity..].
Qed.
Lemma entry_good c devid fs os : plain devid -> flds_calls binary true fs os -> elt_calls binary c (JObj ((B "DEVID", JStr devid) :: fs)) (ElmStart 2 c :: FldStr 3 (B "DEVID") devid false :: os ++ [ElmEnd 2]).
Proof. intros P F. apply (E_elm binary c 2 2 _ ([FldStr 3 (B "DEVID") devid false] ++ os)). apply (flds_app false [(B "DEVID", JStr devid)] _ fs os); [apply flds_one; constructor; [apply plain_dec; reflexivity|exact P]|exact F]. Qed.
Definition bad_list (c : bool) (os : list op) : Prop := exists js1 os1 os2 rest t, os = (os1 ++ os2) ++ rest /\ elts_calls binary c js1 os1 /\ emits JSON os2 = comma (match js1 with [] => c | _ => true end) ++ t /\ vbad t /\ starts t.
(* what follows a device already begun *)
Lemma devices_rest p rs js : devices_shown binary p rs js -> forall prev, p = Some prev -> prev <> [] ->
  exists os, devices_loop prev true rs = Ok (ElmEnd 2 :: os) /\ (Forall okr rs -> elts_calls binary true js os) /\ (~ Forall okr rs -> bad_list true os) /\ (Forall okr rs \/ ~ Forall okr rs).
Proof.
  induction 1 as [p|p devid r rs fs rest js Ne Ld Nd Pd Np D S IH]; intros prev Ep Np'.
  - exists []. split; [destruct prev; [contradiction|reflexivity]|]. split; [constructor|]. split; [intros N; exfalso; apply N; constructor|left; constructor].
  - destruct (IH devid eq_refl Ne) as (os' & E' & G' & Bd' & Dec'). destruct (fields_lemma devid (r :: rs) fs Nd Ld D rest _ E') as (os & E & G & Bd & Dec).
    exists (ElmStart 2 true :: FldStr 3 (B "DEVID") devid false :: os ++ ElmEnd 2 :: os').
    assert (El : devices_loop prev true ((r :: rs) ++ rest) = Ok (ElmEnd 2 :: ElmStart 2 true :: FldStr 3 (B "DEVID") devid false :: os ++ ElmEnd 2 :: os')).
    { destruct r as [key s]. inversion D as [|cat id core s0 rs0 fs0 fs' Nc Ni F D']; subst. cbn [app devices_loop] in E |- *. rewrite (dev_key_devid _ _ _ _ Nd Ld), (dev_key_core _ _ _ _ Nd Nc Ni) in E |- *. rewrite key_eqb_refl in E.
      destruct (key_eqb_spec prev devid) as [->|_]; [exfalso; apply Np; reflexivity|]. destruct (dev_field true core s) as [fo|]; [|discriminate E]. cbn [obind] in E |- *. destruct (devices_loop devid true (rs ++ rest)) as [ro|]; [|discriminate E]. cbn [obind app] in E |- *.
      injection E as E. rewrite E. destruct prev; [contradiction|]. reflexivity. }
    split; [exact El|]. split; [|split].
    + intros H. apply Forall_app in H as [H1 H2]. replace (ElmStart 2 true :: FldStr 3 (B "DEVID") devid false :: os ++ ElmEnd 2 :: os') with ((ElmStart 2 true :: FldStr 3 (B "DEVID") devid false :: os ++ [ElmEnd 2]) ++ os') by (cbn [app]; rewrite <- app_assoc; reflexivity).
      constructor; [apply entry_good; [exact Pd|apply G, H1]|apply G', H2].
    + intros H. destruct Dec as [Sp|Sp].
      * assert (N' : ~ Forall okr rest) by (intros H'; apply H; apply Forall_app; auto). destruct (Bd' N') as (js1 & os1 & os2 & more & t & -> & C & T & R).
        exists (JObj ((B "DEVID", JStr devid) :: fs) :: js1), ((ElmStart 2 true :: FldStr 3 (B "DEVID") devid false :: os ++ [ElmEnd 2]) ++ os1), os2, more, t. split; [cbn [app]; repeat (rewrite <- !app_assoc; cbn [app]); reflexivity|].
        split; [constructor; [apply entry_good; [exact Pd|apply G, Sp]|exact C]|]. split; [|exact R]. rewrite T. destruct js1; reflexivity.
      * destruct (Bd Sp) as (fs1 & os1 & os2 & more & w & n & t & -> & C & T & W & Pn & V). destruct (entry_bad true devid fs1 os1 os2 more w n t Pd C T W Pn V) as (x & Ex & Vx & Sx).
        exists [], [], (ElmStart 2 true :: FldStr 3 (B "DEVID") devid false :: ((os1 ++ os2) ++ more) ++ [ElmEnd 2]), os', x. split; [cbn [app]; repeat (rewrite <- !app_assoc; cbn [app]); reflexivity|]. split; [constructor|]. auto.
    + destruct Dec as [Sp|Sp]; [|right; intros H; apply Sp; apply Forall_app in H; tauto]. destruct Dec' as [H|H]; [left; apply Forall_app; auto|right; intros H'; apply Forall_app in H'; tauto].
Qed.
Definition first_state (rs : list (bytes * stored)) : Prop := exists r rest core, rs = r :: rest /\ get_key_part_rest (fst r) KEY_PART_CORE = Some core /\ is_state core = true.
Lemma devices_first rs js : devices_shown binary None rs js ->
  exists os, devices_loop [] false rs = Ok os /\ (Forall okr rs -> ~ first_state rs -> elts_calls binary false js os) /\ (~ (Forall okr rs /\ ~ first_state rs) -> bad_list false os) /\ ((Forall okr rs /\ ~ first_state rs) \/ ~ (Forall okr rs /\ ~ first_state rs)).
Proof.
  intros S. inversion S as [p|p devid r rs0 fs rest js0 Ne Ld Nd Pd _ D S']; subst.
  - exists []. split; [reflexivity|]. split; [constructor|]. assert (~ first_state []) by (intros (? & ? & ? & E & _); discriminate E). assert (Forall okr []) by constructor. tauto.
  - destruct (devices_rest _ _ _ S' devid eq_refl Ne) as (os' & E' & G' & Bd' & Dec'). destruct (fields_lemma devid (r :: rs0) fs Nd Ld D rest _ E') as (os & E & G & Bd & Dec).
    destruct r as [key s]. inversion D as [|cat id core s0 rs1 fs0 fs' Nc Ni F D']; subst. destruct (field_lemma core s fs0 F) as (fo & Ef & _ & _ & _ & Nst & St).
    assert (Fs : first_state ((dev_key devid cat id core, s) :: rs0 ++ rest) <-> is_state core = true).
    { split; [intros (r & rest' & c & Er & Ec & Es)|intros H; exists (dev_key devid cat id core, s), (rs0 ++ rest), core; split; [reflexivity|split; [apply dev_key_core; assumption|exact H]]]. injection Er as <- _. cbn [fst] in Ec. rewrite (dev_key_core _ _ _ _ Nd Nc Ni) in Ec. injection Ec as <-. exact Es. }
    cbn [app]. cbn [app devices_loop] in E |- *. rewrite (dev_key_devid _ _ _ _ Nd Ld), (dev_key_core _ _ _ _ Nd Nc Ni) in E |- *. rewrite key_eqb_refl in E. destruct (key_eqb_spec [] devid) as [<-|_]; [contradiction|].
    rewrite Ef in E. cbn [obind] in E. destruct (devices_loop devid true (rs0 ++ rest)) as [ro|]; [|discriminate E]. cbn [obind app] in E. injection E as E.
    destruct (is_state core) eqn:Eis.
    + destruct (St eq_refl) as (n & x & ->). cbn [obind app]. eexists. split; [reflexivity|]. assert (FS : first_state ((dev_key devid cat id core, s) :: rs0 ++ rest)) by tauto. split; [tauto|]. split; [|tauto]. intros _.
      assert (F0 : flds_calls binary false [(B "DEVID", JStr devid)] [FldStr 3 (B "DEVID") devid false]) by (apply flds_one; constructor; [apply plain_dec; reflexivity|exact Pd]). destruct (flds_text _ _ _ F0) as (s0 & J0 & E0). rewrite emits_one in E0.
      pose proof (mbad_quote _ _ (LF :: indent 3) J0 ltac:(discriminate) (ws_line 3)) as M. pose proof (starts_jms _ _ _ J0) as S0. set (y := s0 ++ (LF :: indent 3) ++ [QUOTE]) in *. assert (Sy : starts y) by (apply starts_app; exact S0).
      exists [], [], [ElmStart 2 false; FldStr 3 (B "DEVID") devid false; FldStr 3 n x false], ro, (((LF :: indent 2) ++ B "{" ++ y) ++ (n ++ [QUOTE]) ++ B ": " ++ quoted x). split; [reflexivity|]. split; [constructor|]. split; [|split].
      * rewrite !emits_cons, E0. cbn [emits map List.concat]. rewrite app_nil_r. cbn [emit]. unfold break, y, quoted. cbv iota. cbn [comma app]. repeat (rewrite <- !app_assoc; cbn [app]). reflexivity.
      * apply vbad_app, vbad_object; [apply ws_line|exact M|]. intros r. destruct (Sy r) as (a & u & A & _ & A1). eauto.
      * rewrite <- app_assoc. rewrite app_assoc. apply starts_app. rewrite app_assoc. apply starts_app. apply starts_char; [apply ws_line|reflexivity..].
    + rewrite (Nst eq_refl). cbn [obind app]. exists (ElmStart 2 false :: FldStr 3 (B "DEVID") devid false :: os ++ ElmEnd 2 :: os'). split; [rewrite E; reflexivity|]. assert (FS : ~ first_state ((dev_key devid cat id core, s) :: rs0 ++ rest)) by (rewrite Fs; discriminate).
      change ((dev_key devid cat id core, s) :: rs0 ++ rest) with (((dev_key devid cat id core, s) :: rs0) ++ rest) in *. split; [|split].
      * intros H _. apply Forall_app in H as [H1 H2]. replace (ElmStart 2 false :: FldStr 3 (B "DEVID") devid false :: os ++ ElmEnd 2 :: os') with ((ElmStart 2 false :: FldStr 3 (B "DEVID") devid false :: os ++ [ElmEnd 2]) ++ os') by (cbn [app]; rewrite <- app_assoc; reflexivity).
        constructor; [apply entry_good; [exact Pd|apply G, H1]|apply G', H2].
      * intros H. destruct Dec as [Sp|Sp].
        -- assert (N' : ~ Forall okr rest) by (intros H'; apply H; split; [apply Forall_app; auto|exact FS]). destruct (Bd' N') as (js1 & os1 & os2 & more & t & -> & C & T & R).
           exists (JObj ((B "DEVID", JStr devid) :: fs0 ++ fs') :: js1), ((ElmStart 2 false :: FldStr 3 (B "DEVID") devid false :: os ++ [ElmEnd 2]) ++ os1), os2, more, t. split; [cbn [app]; repeat (rewrite <- !app_assoc; cbn [app]); reflexivity|].
           split; [constructor; [apply entry_good; [exact Pd|apply G, Sp]|exact C]|]. split; [|exact R]. rewrite T. destruct js1; reflexivity.
        -- destruct (Bd Sp) as (fs1 & os1 & os2 & more & w & n & t & -> & C & T & W & Pn & V). destruct (entry_bad false devid fs1 os1 os2 more w n t Pd C T W Pn V) as (x & Ex & Vx & Sx).
           exists [], [], (ElmStart 2 false :: FldStr 3 (B "DEVID") devid false :: ((os1 ++ os2) ++ more) ++ [ElmEnd 2]), os', x. split; [cbn [app]; repeat (rewrite <- !app_assoc; cbn [app]); reflexivity|]. split; [constructor|]. auto.
      * destruct Dec as [Sp|Sp]; [|right; intros [H _]; apply Sp; apply Forall_app in H; tauto]. destruct Dec' as [H|H]; [left; split; [apply Forall_app; auto|exact FS]|right; intros [H' _]; apply Forall_app in H'; tauto].
Qed.
Lemma records_in p rs js : devices_shown binary p rs js -> forall r, In r rs -> exists devid cat id core, fst r = dev_key devid cat id core /\ ~ In ":"%char devid /\ ~ In ":"%char cat /\ ~ In ":"%char id.
Proof.
  induction 1 as [p|p devid r0 rs0 fs rest js Ne Ld Nd Pd Np D S IH]; intros r I; [destruct I|]. apply in_app_or in I as [I|I]; [|exact (IH r I)]. clear - D I Nd. revert I. induction D as [|cat id core s rs fs fs' Nc Ni F D IH]; intros I; [destruct I|].
  destruct I as [<-|I]; [exists devid, cat, id, core; auto|exact (IH I)].
Qed.
Lemma groups_ok p rs js : devices_shown binary p rs js -> (groups_separated rs <-> Forall okr rs).
Proof.
  intros S. split; intros H.
  - apply Forall_forall. intros [k s] I. destruct (records_in _ _ _ S _ I) as (devid & cat & id & core & E & N1 & N2 & N3). cbn [fst] in E. subst k. unfold okr. cbn [fst snd]. rewrite (dev_key_core _ _ _ _ N1 N2 N3). intros Ic. eapply H; eassumption.
  - intros devid cat id core s I N1 N2 N3 Ic. rewrite Forall_forall in H. specialize (H _ I). unfold okr in H. cbn [fst snd] in H. rewrite (dev_key_core _ _ _ _ N1 N2 N3) in H. exact (H Ic).
Qed.
Lemma state_ok p rs js : devices_shown binary p rs js -> (begins_with_state rs <-> first_state rs).
Proof.
  intros S. split.
  - intros (devid & cat & id & core & s & rest & -> & N1 & N2 & N3 & Ic). eexists _, _, core. split; [reflexivity|]. split; [cbn [fst]; apply dev_key_core; assumption|]. destruct Ic as [<-|[<-|[]]]; reflexivity.
  - intros ([k s] & rest & core & -> & Ec & Es). destruct (records_in _ _ _ S (k, s) ltac:(left; reflexivity)) as (devid & cat & id & core' & E & N1 & N2 & N3). cbn [fst] in E, Ec. subst k. rewrite (dev_key_core _ _ _ _ N1 N2 N3) in Ec. injection Ec as ->.
    exists devid, cat, id, core, s, rest. split; [reflexivity|]. repeat (split; [assumption|]). unfold is_state in Es. apply orb_true_iff in Es as [Es|Es]; [left|right; left]; (destruct (key_eqb_spec core (B "#RDY")) + idtac); match goal with H : key_eqb core ?x = true |- _ => destruct (key_eqb_spec core x); [symmetry; assumption|discriminate H] end.
Qed.
Lemma devices_theorem rs js : devices_shown binary None rs js -> exists os t, devices rs = Ok os /\ emits JSON os = t ++ [NUL]
  /\ (parse t = Some (JObj [(B "siddevices", JArr js)]) <-> groups_separated rs /\ ~ begins_with_state rs) /\ (~ (groups_separated rs /\ ~ begins_with_state rs) -> parse t = None).
Proof.
  intros S. destruct (devices_first rs js S) as (os & E & G & Bd & Dec). unfold devices. rewrite E. cbn [obind]. exists (DocStart 0 :: ArrStart 1 (B "siddevices") false :: os ++ [ArrEnd 1; DocEnd 0; NullByte]), (emits JSON (DocStart 0 :: ArrStart 1 (B "siddevices") false :: os ++ [ArrEnd 1; DocEnd 0])).
  split; [reflexivity|]. split.
  { change [ArrEnd 1; DocEnd 0; NullByte] with ([ArrEnd 1; DocEnd 0] ++ [NullByte]). rewrite app_assoc, !app_comm_cons, emits_app. reflexivity. }
  assert (Q : (groups_separated rs /\ ~ begins_with_state rs) <-> (Forall okr rs /\ ~ first_state rs)) by (rewrite (groups_ok _ _ _ S), (state_ok _ _ _ S); tauto).
  assert (P : Forall okr rs /\ ~ first_state rs -> parse (emits JSON (DocStart 0 :: ArrStart 1 (B "siddevices") false :: os ++ [ArrEnd 1; DocEnd 0])) = Some (JObj [(B "siddevices", JArr js)])).
  { intros [F1 F2]. apply parse_doc. replace (ArrStart 1 (B "siddevices") false :: os ++ [ArrEnd 1; DocEnd 0]) with (((ArrStart 1 (B "siddevices") false :: os ++ [ArrEnd 1]) ++ []) ++ [DocEnd 0]) by (rewrite app_nil_r; cbn [app]; rewrite <- app_assoc; reflexivity).
    constructor. constructor; [|constructor]. constructor; [apply plain_dec; reflexivity|exact (G F1 F2)]. }
  assert (N : ~ (Forall okr rs /\ ~ first_state rs) -> parse (emits JSON (DocStart 0 :: ArrStart 1 (B "siddevices") false :: os ++ [ArrEnd 1; DocEnd 0])) = None).
  { intros F. destruct (Bd F) as (js1 & os1 & os2 & rest & t & -> & C & T & V & St). rewrite <- app_assoc. apply (list_bad (B "siddevices") os1 js1 os2 t); [apply plain_dec; reflexivity|exact C| |exact V|exact St]. rewrite T. destruct js1; reflexivity. }
  rewrite Q. split; [|exact N]. split; [|exact P]. intros H. destruct Dec as [D|D]; [exact D|]. rewrite (N D) in H. discriminate H.
Qed.
