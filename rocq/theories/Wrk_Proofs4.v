(* Proofs about worker channels: external workers. *)
From Verif Require Import Base Buf_Model Buf_Spec Buf_Proofs Buf_IO Wrk_Model Wrk_Spec Wrk_Proofs Wrk_Proofs2 Wrk_Proofs3.
Local Open Scope N_scope.

Lemma ext_grows i : tx_ok i -> grows (lane_init i ext_init).
Proof.
  intros [-> |H].
  - cbn. unfold grows, ext_init; cbn; pw; lia.
  - unfold lane_init. replace (istep i =? 0) with false by lia. rewrite orb_true_r. exact H.
Qed.

(* One read into a plain buffer. *)
Lemma read_plain_step a b c s : lrep b c -> bmode b = PLAIN -> grows (binit b) -> bmark b = None -> len c <= 2 ^ 33 ->
  (match a with RErr e => (0 < e)%Z | RGive _ => True end) ->
  exists b' n s' d, sid_buf_read true a b s = Ok (b', n, s') /\ s = d ++ s' /\ lrep b' (c ++ d) /\ bmode b' = PLAIN /\
    binit b' = binit b /\ bmark b' = None /\
    match a with RErr e => n = (- e)%Z /\ d = [] | RGive k => n = Z.of_nat (length d) /\ (k <> 0 -> s <> [] -> d <> []) end.
Proof.
  intros R M G MK LC AP. unfold sid_buf_read. rewrite M. unfold linear_read_plain.
  assert (GR : exists b1, (if bused b =? allocated b then linear_realloc true b (wrap64 (allocated b + istep (binit b))) false else (b, 0%Z)) = (b1, 0%Z) /\
    lrep b1 c /\ bmode b1 = PLAIN /\ binit b1 = binit b /\ bmark b1 = None /\ bused b1 < allocated b1 /\ bused b1 = len c).
  { assert (UL : bused b = len c) by (pose proof (proj1 (proj2 R)) as X; rewrite M in X; cbn [pfx] in X; destruct X as [X|[X ->]]; [lia|exact X]).
    pose proof (lrep_len _ _ R) as LL. rewrite M in LL. cbn [pfx] in LL.
    destruct (N.eqb_spec (bused b) (allocated b)) as [E|E].
    - pose proof G as [G1 [G2 G3]].
      rewrite wrap64_small by (clear - E UL LC G2; pw; lia).
      destruct (linear_realloc true b (allocated b + istep (binit b)) false) as [b1 r1] eqn:RR. pose proof RR as RR2.
      apply realloc_ok_iff in RR2; [|clear - E UL LC G2; pw; lia|apply grows_valid; auto].
      assert (r1 = 0%Z) as ->.
      { apply RR2. right. split; [clear - G2; lia|]. split; [auto|]. split; [auto|].
        pose proof (roundup_bounds (allocated b + istep (binit b)) (istep (binit b)) ltac:(clear - G2; lia)) as B.
        clear - B E UL LC G2. pw. lia. }
      exists b1. split; auto. apply realloc_grow in RR; [|clear - E UL LC G2; pw; lia|apply R].
      destruct RR as [[_ [H1 [H2 [[k H3] [H4 [H5 [H6 H7]]]]]]]|[H1 _]]; [|lia].
      split; [eapply lrep_ext; eauto|]. repeat split; try congruence. clear - H1 H6 E G2. lia.
    - exists b. repeat split; auto; try apply R. clear - UL LL E. lia. }
  destruct GR as [b1 [E1 [R1 [M1 [I1 [K1 [U1 UL1]]]]]]]. rewrite E1. change (0 <? 0)%Z with false. cbv iota.
  assert (A1 : allocated b1 < 2 ^ 63) by apply R1.
  rewrite sub64_le by (clear - U1 A1; pw; lia).
  destruct a as [k|e]; cbn [sys_read].
  2:{ exists b1, (- e)%Z, s, []. rewrite app_nil_r. replace (0 <? - e)%Z with false by (clear - AP; lia). repeat split; auto; apply R1. }
  set (n := Nat.min (Nat.min (N.to_nat k) (N.to_nat (allocated b1 - bused b1))) (length s)).
  assert (LN : length (firstn n s) = n) by (rewrite firstn_length; clear; lia).
  destruct (Z.ltb_spec 0 (Z.of_nat n)) as [P|P].
  - destruct (store_after b1 c (map Some (firstn n s)) R1) as [h [t [S1 [S2 S3]]]].
    { rewrite map_length, LN, M1. cbn [pfx]. rewrite <- UL1. clear - U1. lia. }
    rewrite M1 in S2. cbn [pfx] in S2. rewrite N.add_0_l, <- UL1 in S2. rewrite S2. cbn [obind].
    eexists _, _, _, (firstn n s). split; [reflexivity|]. split; [symmetry; apply firstn_skipn|].
    split. { apply lrep_stored; auto. rewrite M1. cbn [pfx]. unfold len at 2. rewrite LN, UL1. clear. lia. }
    split; [exact M1|]. split; [exact I1|]. split; [exact K1|]. split; [rewrite LN; auto|].
    intros _ _ Q. apply (f_equal (@length _)) in Q. rewrite LN in Q. cbn in Q. clear - P Q. lia.
  - assert (Z0 : n = 0%nat) by (clear - P; lia). rewrite Z0. cbn [firstn skipn].
    exists b1, (Z.of_nat 0), s, []. rewrite app_nil_r. repeat split; auto; try apply R1.
    intros KZ SN. exfalso. destruct s as [|x s]; [contradiction|]. clear - Z0 KZ U1. cbn [length] in n. subst n. cbn [length] in Z0. lia.
Qed.

Definition xinv (sd : side) (sp : chanspec) (i : bufinit) (l : xlink) (got : bytes) : Prop :=
  ch_side (x_rx l) = sd /\ ch_spec (x_rx l) = sp /\ grows i /\
  (x_gone l = false -> exists b, ch_rx (x_rx l) = Some b /\ lrep b got /\ bmode b = PLAIN /\ binit b = i /\ bmark b = None).

Definition xdone (sd : side) (sp : chanspec) (gone : bool) (got : bytes) : list act :=
  if gone then [ACallback (map Some (got ++ suffix sd sp)) None] else [].

Definition feeds (closed : bool) (ops : list xop) := if closed then [] else fed ops.

Lemma xstep sd sp i l got o t :
  xinv sd sp i l got -> len (suffix sd sp) <= 2 ^ 33 -> xcalm o ->
  (x_gone l = true -> x_closed l = true /\ x_str l = []) ->
  len got + len (map fst (x_str l ++ feeds (x_closed l) (o :: t))) <= 2 ^ 33 ->
  exists l' r got' d, xlink_step l o = Ok (l', r) /\ went_well r /\ xinv sd sp i l' got' /\
    (x_gone l' = true -> x_closed l' = true /\ x_str l' = []) /\
    got' = got ++ d /\
    map fst (x_str l ++ feeds (x_closed l) (o :: t)) = d ++ map fst (x_str l' ++ feeds (x_closed l') t) /\
    xdone sd sp (x_gone l') got' = xdone sd sp (x_gone l) got ++ done [r] /\
    (match o with XEvent e => x_closed l' = x_closed l /\ (length (x_str l') <= length (x_str l))%nat /\ (give e -> (x_str l <> [] -> (length (x_str l') < length (x_str l))%nat) /\
        (x_str l = [] -> x_closed l = true -> x_gone l' = true)) | _ => True end).
Proof.
  intros [I1 [I2 [G I3]]] SL C GN LT.
  destruct o as [s|e|].
  - cbn [xlink_step]. destruct (x_closed l) eqn:CL.
    + exists l, LRNone, got, []. rewrite app_nil_r, CL. split; [reflexivity|]. split; [exact I|].
      split; [split; [exact I1|split; [exact I2|split; [exact G|exact I3]]]|]. split; [auto|]. split; auto. split; [reflexivity|]. split; [symmetry; apply app_nil_r|auto].
    + assert (NG : x_gone l = false) by (destruct (x_gone l); auto; destruct (GN eq_refl); discriminate).
      eexists _, LRNone, got, []. split; [reflexivity|]. split; [exact I|]. rewrite app_nil_r. cbn [x_gone x_closed x_str].
      split; [split; [exact I1|split; [exact I2|split; [exact G|exact I3]]]|]. split; [rewrite NG; discriminate|]. split; auto.
      split; [cbn [feeds fed app]; rewrite <- app_assoc; auto|]. split; [symmetry; apply app_nil_r|auto].
  - destruct (x_gone l) eqn:GE.
    + destruct (GN eq_refl) as [CL SE]. exists l, LRNone, got, []. cbn [xlink_step]. rewrite GE. split; auto. split; [exact I|].
      rewrite app_nil_r. split; [split; [exact I1|split; [exact I2|split; [exact G|rewrite GE; discriminate]]]|]. split; [auto|]. split; auto. rewrite CL. cbn [feeds].
      rewrite SE. split; [reflexivity|]. split; [rewrite app_nil_r; auto|]. split; [auto|]. split; [auto|]. intros _. split; [intro Q; contradiction|auto].
    + destruct (I3 eq_refl) as [b [B [R [M [BI MK]]]]]. destruct C as [K1 [K2 [K3 [K4 [K5 K6]]]]].
      cbn [xlink_step]. rewrite GE. unfold chan_event, chan_buf_recv. rewrite K1, B. unfold chan_read. rewrite K2.
      set (a := kernel_answer (x_closed l) (ev_rd e) (x_str l)).
      assert (LG : len got <= 2 ^ 33) by (clear - LT; lia).
      destruct (read_plain_step a b got (map fst (x_str l)) R M) as [b1 [n [s1 [d [E1 [S1 [R1 [M1 [BI1 [MK1 P1]]]]]]]]]]; auto.
      { rewrite BI; auto. }
      { unfold a, kernel_answer. destruct (ev_rd e) as [k|x]; [destruct (x_str l); [destruct (x_closed l); [auto|reflexivity]|auto]|]. destruct K6 as [-> | ->]; reflexivity. }
      rewrite E1. cbn [obind].
      set (s2 := skipn (length (x_str l) - length s1) (x_str l)).
      assert (S2 : map fst s2 = s1).
      { unfold s2. rewrite map_skipn', S1. apply app_skip.
        pose proof (f_equal (@length _) S1) as Q. rewrite map_length, app_length in Q. clear - Q. unfold sbyte in *. lia. }
      assert (L2 : (length s2 + length d = length (x_str l))%nat).
      { pose proof (f_equal (@length _) S1) as Q1. pose proof (f_equal (@length _) S2) as Q2. rewrite map_length in Q1, Q2. rewrite app_length in Q1.
        clear - Q1 Q2. unfold sbyte in *. lia. }
      assert (CONT : map fst (x_str l ++ feeds (x_closed l) (XEvent e :: t)) = d ++ map fst (s2 ++ feeds (x_closed l) t)).
      { unfold sbyte in *. rewrite !map_app, S1, S2, <- app_assoc. do 3 f_equal. }
      assert (MORE : d = [] \/ d <> []) by (destruct d; auto; right; discriminate).
      assert (STAY : forall r, r = Ok (with_rx (x_rx l) b1, RcvMore, s2) -> (d = [] -> ~ (give e /\ (x_str l <> [] \/ x_closed l = true))) ->
        exists (l' : xlink) r0 got' d0,
        (let! (c, r, s, acts, gone) :=
           (let! (c, r, s) := r in
            match r with
            | RcvMore => Ok (c, Some 0%Z, s, [], false)
            | RcvMsg cmd d ext eof =>
               let! a := (if (cmd =? CMD_DATA) || (cmd =? CMD_DATA_EXT) then Ok (ACallback d ext)
                 else match ch_side c with
                      | PROXY => if cmd =? CMD_YIELD then Ok AExit else if cmd <? 4 then Ok (AUnexpected cmd) else UB
                      | WORKER => if cmd <? 4 then Ok (AUnexpected cmd) else UB
                      end) in
               Ok (match ch_rx c with Some b => with_rx c (fst (sid_buf_reset (ev_ao3 e) b)) | None => c end, Some 0%Z, s, [a], eof)
            | RcvEof => Ok (c, Some 0%Z, s, [], true)
            | RcvErr r => Ok (match ch_rx c with Some b => with_rx c (fst (sid_buf_reset (ev_ao3 e) b)) | None => c end, Some r, s, [], false)
            | RcvLoop => Ok (c, None, s, [], false)
            end) in
         Ok ({| x_rx := c; x_str := s; x_closed := x_closed l; x_gone := gone |}, LREvent r acts)) = Ok (l', r0) /\ went_well r0 /\ xinv sd sp i l' got' /\
        (x_gone l' = true -> x_closed l' = true /\ x_str l' = []) /\
        got' = got ++ d0 /\
        map fst (x_str l ++ feeds (x_closed l) (XEvent e :: t)) = d0 ++ map fst (x_str l' ++ feeds (x_closed l') t) /\
        xdone sd sp (x_gone l') got' = xdone sd sp false got ++ done [r0] /\
        (x_closed l' = x_closed l /\ (length (x_str l') <= length (x_str l))%nat /\
          (give e -> (x_str l <> [] -> (length (x_str l') < length (x_str l))%nat) /\
          (x_str l = [] -> x_closed l = true -> x_gone l' = true)))).
      { intros r -> Q. cbn [obind].
        exists {| x_rx := with_rx (x_rx l) b1; x_str := s2; x_closed := x_closed l; x_gone := false |}, (LREvent (Some 0%Z) []), (got ++ d), d.
        split; [reflexivity|]. split; [reflexivity|]. split.
        { split; [exact I1|split; [exact I2|split; [exact G|]]]. intros _. exists b1. split; [reflexivity|]. split; [exact R1|]. split; [exact M1|]. split; [congruence|exact MK1]. }
        split; [discriminate|]. split; [auto|]. split; [exact CONT|]. split; [reflexivity|]. cbn [x_closed x_str x_gone].
        split; auto. split; [clear - L2; unfold sbyte in *; lia|]. intro GV.
        assert (DN : x_str l <> [] \/ x_closed l = true -> d <> []) by (intros Y Z; exact (Q Z (conj GV Y))).
        split.
        - intro Y. specialize (DN (or_introl Y)). destruct d as [|x d]; [contradiction|]. cbn [length] in L2. clear - L2. unfold sbyte in *. lia.
        - intros Y1 Y2. specialize (DN (or_intror Y2)). exfalso. rewrite Y1 in S1. destruct d; [contradiction|discriminate]. }
      destruct a as [k|x] eqn:EA.
      * destruct P1 as [-> P1]. destruct d as [|y d].
        { (* the end *)
          assert (KK : x_str l = [] /\ x_closed l = true).
          { unfold a, kernel_answer in EA. destruct (ev_rd e) as [k0|]; [|discriminate]. destruct (x_str l) as [|z q] eqn:XS.
            - destruct (x_closed l); [auto|discriminate].
            - injection EA as <-. exfalso. apply P1; [clear; lia|discriminate|reflexivity]. }
          destruct KK as [SE CL]. change (Z.of_nat (length [])) with 0%Z. change (0 <? 0)%Z with false. cbv iota. rewrite M1.
          rewrite app_nil_r in R1.
          destruct (add_suffix_ok (x_rx l) b1 got R1) as [b2 [E2 [R2 [M2 I2']]]]; auto.
          { rewrite BI1, BI. auto. } { rewrite I1, I2. auto. }
          rewrite K3, E2. cbn [obind]. change (0 <? 0)%Z with false. cbv iota. rewrite I1, I2 in R2.
          destruct (linear_get_ok b2 _ 0 R2) as [b3 [r3 [d3 [E3 [R3 [M3 [I3' [_ [_ H3]]]]]]]]].
          rewrite E3. set (full := got ++ suffix sd sp) in *. replace (0 <=? len full) with true in H3 by (clear; lia).
          destruct H3 as [-> [-> _]]. rewrite <- M3. rewrite N.sub_0_r. rewrite (load_sub b3 full 0 (len full) R3) by (clear; lia). cbn [obind].
          cbn [skipn N.to_nat]. rewrite firstn_all2 by (unfold len; clear; lia).
          change ((CMD_DATA =? CMD_DATA) || (CMD_DATA =? CMD_DATA_EXT)) with true. cbv iota. cbn [obind ch_rx with_rx].
          eexists _, _, got, []. split; [reflexivity|]. split; [reflexivity|].
          cbn [x_gone x_closed x_str]. assert (SE2 : s2 = []) by (unfold s2; rewrite SE; apply skipn_nil).
          split; [split; [exact I1|split; [exact I2|split; [exact G|discriminate]]]|]. split; [auto|]. split; [rewrite app_nil_r; auto|]. split; [exact CONT|].
          split; [reflexivity|]. split; auto. split; [rewrite SE2; cbn; clear; lia|]. intros _. split; [intro Q; contradiction|auto]. }
        cbn [length]. replace (0 <? Z.of_nat (S (length d)))%Z with true by (clear; lia). rewrite M1.
        apply STAY; [reflexivity|discriminate].
      * destruct P1 as [-> P1].
        assert (TX : transient x /\ ~ (give e /\ (x_str l <> [] \/ x_closed l = true))).
        { unfold a, kernel_answer, give in *. destruct (ev_rd e) as [k|y].
          - destruct (x_str l) as [|z q]; [|discriminate]. destruct (x_closed l); [discriminate|]. injection EA as <-. split; [left; auto|].
            intros [_ [Q|Q]]; [contradiction|discriminate].
          - injection EA as <-. split; auto. intros [Q _]. exact Q. }
        destruct TX as [TX NT]. replace (0 <? - x)%Z with false by (destruct TX as [-> | ->]; reflexivity).
        replace (- x <? 0)%Z with true by (destruct TX as [-> | ->]; reflexivity).
        replace ((- x =? - EAGAIN)%Z || (- x =? - EINTR)%Z) with true by (destruct TX as [-> | ->]; reflexivity).
        apply STAY; auto.
  - eexists _, LRNone, got, []. split; [reflexivity|]. split; [exact I|]. rewrite app_nil_r. cbn [x_gone x_closed x_str].
    split; [split; [exact I1|split; [exact I2|split; [exact G|exact I3]]]|]. split; [intro Q; split; auto; apply GN; auto|]. split; auto.
    split; [destruct (x_closed l); reflexivity|]. split; [rewrite app_nil_r; auto|auto].
Qed.

Lemma xrun_lemma sd sp i ops : len (suffix sd sp) <= 2 ^ 33 -> forall l got, xinv sd sp i l got -> Forall xcalm ops ->
  (x_gone l = true -> x_closed l = true /\ x_str l = []) ->
  len got + len (map fst (x_str l ++ feeds (x_closed l) ops)) <= 2 ^ 33 ->
  exists l' rs got' d, xlink_run l ops = Ok (l', rs) /\ Forall went_well rs /\ xinv sd sp i l' got' /\
    (x_gone l' = true -> x_closed l' = true /\ x_str l' = []) /\
    got' = got ++ d /\ map fst (x_str l ++ feeds (x_closed l) ops) = d ++ map fst (x_str l') /\
    xdone sd sp (x_gone l') got' = xdone sd sp (x_gone l) got ++ done rs /\
    (Forall xgiving ops -> x_closed l = true -> (length (x_str l) < length ops)%nat -> x_gone l' = true).
Proof.
  intro SL. induction ops as [|o ops IH]; intros l got I F GN LT.
  - exists l, [], got, []. rewrite app_nil_r. split; [reflexivity|]. split; auto. split; auto. split; auto. split; auto.
    split; [unfold feeds; destruct (x_closed l); cbn [fed]; rewrite app_nil_r; auto|]. split; [rewrite app_nil_r; auto|].
    cbn. intros _ _ Q. clear - Q. lia.
  - inversion F as [|? ? F1 F2]; subst.
    destruct (xstep sd sp i l got o ops I SL F1 GN LT) as [l1 [r [got1 [d [E [W [I1 [GN1 [G1 [S1 [D1 P1]]]]]]]]]]].
    assert (LT1 : len got1 + len (map fst (x_str l1 ++ feeds (x_closed l1) ops)) <= 2 ^ 33).
    { rewrite S1 in LT. rewrite len_app in LT. rewrite G1, len_app. clear - LT. lia. }
    destruct (IH l1 got1 I1 F2 GN1 LT1) as [l2 [rs [got2 [d2 [E2 [W2 [I2 [GN2 [G2 [S2 [D2 P2]]]]]]]]]]].
    exists l2, (r :: rs), got2, (d ++ d2). cbn [xlink_run]. rewrite E. cbn [obind]. rewrite E2. split; [reflexivity|].
    split; auto. split; auto. split; auto. split; [rewrite G2, G1, app_assoc; auto|]. split; [rewrite S1, S2, app_assoc; auto|].
    split; [rewrite D2, D1, (done_cons r rs), app_assoc; auto|].
    intros V CL LL. inversion V as [|? ? V1 V2]; subst. destruct o as [|e|]; try contradiction V1. destruct P1 as [P1 [P3 P4]].
    destruct (P4 V1) as [P5 P6]. cbn [length] in LL.
    destruct (x_str l) as [|z q] eqn:XS.
    + specialize (P6 eq_refl CL). clear - E2 P6 P1 CL.
      revert l1 rs E2 P6 P1. induction ops as [|o evs IH]; intros l1 rs E2 P3 P4; cbn [xlink_run] in E2; [injection E2 as <- _; auto|].
      destruct (xlink_step l1 o) as [[l3 r3]|] eqn:ST; [|discriminate]. cbn [obind] in E2.
      destruct (xlink_run l3 evs) as [[l4 rs4]|] eqn:RN; [|discriminate]. cbn [obind] in E2. injection E2 as <- <-.
      destruct o as [s|e0|]; cbn [xlink_step] in ST.
      * rewrite P4, CL in ST. injection ST as <- _. eapply IH; eauto.
      * rewrite P3 in ST. injection ST as <- _. eapply IH; eauto.
      * injection ST as <- _. eapply IH; eauto.
    + apply P2; auto; [congruence|]. specialize (P5 ltac:(discriminate)). cbn [length] in *. clear - P5 LL. lia.
Qed.

Lemma ext_setup ao1 ao2 sp c : leads PROXY sp -> tx_ok (l_init (proxy_rx sp)) ->
  setup_channel ao1 ao2 PROXY EXTERNAL sp = Ok (inl c) ->
  xinv PROXY sp (lane_init (l_init (proxy_rx sp)) ext_init) {| x_rx := c; x_str := []; x_closed := false; x_gone := false |} [].
Proof.
  intros L T E. apply ext_grows in T. unfold setup_channel in E. unfold leads in L.
  destruct (mk ao1 _ _ _) as [[b1|e]|] eqn:M1; [cbn [obind] in E|discriminate|discriminate].
  destruct (mk ao2 _ _ _) as [[b2|e]|] eqn:M2; [cbn [obind] in E|discriminate|discriminate].
  injection E as <-. split; [reflexivity|]. split; [reflexivity|]. split; auto. intros _. apply mk_inl in M1. cbn [x_rx ch_rx].
  destruct b1 as [b1|]; [|destruct (s_wire sp); try discriminate; contradiction].
  exists b1. split; auto. apply create_fresh in M1; auto. destruct M1 as [FR _]. split; [apply (fresh_lrep _ _ _ FR)|].
  destruct FR as [A [B [C [D _]]]]. auto.
Qed.

Lemma external_lemma ao1 ao2 sp c ops :
  leads PROXY sp -> xrx_ok (l_init (proxy_rx sp)) -> len (suffix PROXY sp) <= 2 ^ 33 ->
  setup_channel ao1 ao2 PROXY EXTERNAL sp = Ok (inl c) -> Forall xcalm ops -> len (map fst (fed ops)) <= 2 ^ 33 ->
  exists l rs, xlink_run {| x_rx := c; x_str := []; x_closed := false; x_gone := false |} ops = Ok (l, rs) /\ Forall went_well rs /\
    done rs = (if x_gone l then [ACallback (map Some (map fst (fed ops) ++ suffix PROXY sp)) None] else []) /\
    (x_gone l = true -> x_closed l = true).
Proof.
  intros L T SL E C LE. pose proof (ext_setup _ _ _ _ L T E) as I.
  destruct (xrun_lemma PROXY sp _ ops SL _ _ I C) as [l [rs [got [d [E2 [W [I2 [GN [G [S [D _]]]]]]]]]]].
  - discriminate.
  - cbn [x_str x_closed app feeds]. change (len []) with 0. clear - LE. lia.
  - exists l, rs. split; auto. split; auto. cbn [x_gone x_str x_closed app feeds xdone] in *. split; [|intro Q; apply GN; auto].
    rewrite <- D. unfold xdone. destruct (x_gone l); auto. destruct (GN eq_refl) as [_ SE]. rewrite SE in S. cbn [map] in S. rewrite app_nil_r in S.
    rewrite G, S. reflexivity.
Qed.

Lemma xrun_app ops1 ops2 l : xlink_run l (ops1 ++ ops2) =
  (let! (l1, r1) := xlink_run l ops1 in let! (l2, r2) := xlink_run l1 ops2 in Ok (l2, r1 ++ r2)).
Proof.
  revert l. induction ops1 as [|o t IH]; intro l; cbn [app xlink_run].
  - cbn [obind]. destruct (xlink_run l ops2) as [[? ?]|]; reflexivity.
  - destruct (xlink_step l o) as [[l1 r1]|]; [|reflexivity]. cbn [obind]. rewrite IH.
    destruct (xlink_run l1 t) as [[l2 r2]|]; [|reflexivity]. cbn [obind].
    destruct (xlink_run l2 ops2) as [[l3 r3]|]; reflexivity.
Qed.

Lemma external_end_lemma ao1 ao2 sp c ops evs :
  leads PROXY sp -> xrx_ok (l_init (proxy_rx sp)) -> len (suffix PROXY sp) <= 2 ^ 33 ->
  setup_channel ao1 ao2 PROXY EXTERNAL sp = Ok (inl c) -> Forall xcalm ops -> len (map fst (fed ops)) <= 2 ^ 33 ->
  Forall xcalm evs -> Forall xgiving evs -> (length (fed ops) < length evs)%nat ->
  exists l rs, xlink_run {| x_rx := c; x_str := []; x_closed := false; x_gone := false |} (ops ++ XClose :: evs) = Ok (l, rs) /\
    done rs = [ACallback (map Some (map fst (fed ops) ++ suffix PROXY sp)) None] /\ x_gone l = true.
Proof.
  intros L T SL E C LE CE V LV. pose proof (ext_setup _ _ _ _ L T E) as I.
  assert (FE : fed (ops ++ XClose :: evs) = fed ops).
  { clear. induction ops as [|[s|e|] t IH]; cbn [app fed]; auto. rewrite IH. auto. }
  destruct (xrun_lemma PROXY sp _ ops SL _ _ I C) as [l [rs [got [d [E2 [W [I2 [GN [G [S [D _]]]]]]]]]]].
  - discriminate.
  - cbn [x_str x_closed app feeds]. change (len []) with 0. clear - LE. lia.
  - cbn [x_gone x_str x_closed app feeds xdone] in *.
    set (l1 := {| x_rx := x_rx l; x_str := x_str l; x_closed := true; x_gone := x_gone l |}).
    assert (LL : (length (x_str l) <= length (fed ops))%nat).
    { apply (f_equal (@length _)) in S. rewrite app_length, !map_length in S. clear - S. unfold sbyte in *. lia. }
    destruct (xrun_lemma PROXY sp (lane_init (l_init (proxy_rx sp)) ext_init) evs SL l1 got) as [l2 [rs2 [got2 [d2 [E3 [W3 [I3 [GN3 [G3 [S3 [D3 P3]]]]]]]]]]]; auto.
    { intro Q. split; auto. apply GN; auto. }
    { cbn [l1 x_str x_closed feeds]. rewrite app_nil_r, G. rewrite <- len_app. cbn [app]. rewrite <- S. exact LE. }
    assert (GO : x_gone l2 = true) by (apply P3; auto; cbn [l1 x_str]; clear - LL LV; unfold sbyte in *; lia).
    exists l2, (rs ++ LRNone :: rs2). rewrite xrun_app, E2. cbn [obind xlink_run xlink_step]. fold l1. rewrite E3. cbn [obind]. split; [reflexivity|].
    split; auto. rewrite done_app. change (done (LRNone :: rs2)) with (done rs2). rewrite <- D.
    cbn [l1 x_gone] in D3. rewrite <- D3, GO. cbn [xdone]. destruct (GN3 GO) as [_ SE]. rewrite SE in S3. cbn [map l1 x_str x_closed feeds] in S3.
    rewrite !app_nil_r in S3. rewrite G3, G, S, <- S3. reflexivity.
Qed.
