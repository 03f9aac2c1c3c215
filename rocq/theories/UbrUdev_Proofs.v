From Verif Require Import Base Kvs_Model UbrKey_Model UbrKey_Spec UbrKey_Proofs UbrDb_Model UbrPerm_Spec UbrPerm_Proofs UbrDelta_Proofs UbrRec_Model UbrRec_Proofs UbrDelta_Spec UbrSync_Model UbrSync_Spec
  UbrSync_Proofs UbrSyncWork_Proofs UbrUdev_Spec.
Local Open Scope nat_scope.

Lemma udev_parts k core : get_ns_from_key k = NS_UDEV -> get_key_part k KEY_PART_CORE = Some core ->
  exists op dom part cat id, has_parts k [op; dom; B "U"; part; cat; id; core].
Proof.
  intros U C. destruct (decompose_lemma k) as (P & _). remember (fst (decompose_key k)) as l eqn:El. clear El.
  apply (get_part_lemma _ _ 6 core P ltac:(lia)) in C. destruct C as (C & _).
  unfold get_ns_from_key in U. destruct (get_key_part k KEY_PART_NS) as [p|] eqn:N; [|discriminate]. apply (get_part_lemma _ _ 2 p P ltac:(lia)) in N. destruct N as (N & _).
  pose proof P as (_ & _ & L & _).
  destruct l as [|op [|dom [|ns [|part [|cat [|id [|c [|? ?]]]]]]]]; try discriminate; [|cbn in L; lia].
  cbn in C, N. injection C as ->. injection N as ->.
  destruct p as [|u [|? ?]]; try discriminate. destruct (Ascii.eqb_spec u "U"%char) as [->|]; [|repeat (destruct (Ascii.eqb u _); try discriminate)].
  exists op, dom, part, cat, id. exact P.
Qed.
Lemma parts_udev k op dom part cat id core : has_parts k [op; dom; B "U"; part; cat; id; core] -> get_ns_from_key k = NS_UDEV /\ get_key_part k KEY_PART_CORE = Some core.
Proof.
  intros P. split.
  - unfold get_ns_from_key, KEY_PART_NS. rewrite (proj2 (get_part_lemma k _ 2 (B "U") P ltac:(lia))); [reflexivity|]. split; [reflexivity|right; cbn; lia].
  - apply (get_part_lemma k _ 6 core P ltac:(lia)). split; [reflexivity|left; reflexivity].
Qed.
Lemma line_lemma d k v : recs d k = Some v -> N.testbit (r_flags v) 1 = true -> get_ns_from_key k = NS_UDEV ->
  forall lines key, udev_line k (cleared v) = Ok (lines, key) ->
  (exists line, lines = [line] /\ property_line d k line) \/ (lines = [] /\ forall line, ~ property_line d k line).
Proof.
  intros R F U lines key. unfold udev_line. cbn [cleared r_data].
  assert (No : forall core x rest, get_key_part k KEY_PART_CORE = core -> r_data v = x -> (core = None \/ x = [] \/ (exists t, x = [] :: t) \/ (exists c t u, x = (c :: t) :: u /\ (c = NUL \/ t = []))) ->
            rest = 0 -> forall line, ~ property_line d k line).
  { intros core x _ Ec Ex H _ line (v' & op & dom & part & cat & id & name & s & rest & y & R' & _ & P & D & Ns & Zs & _).
    rewrite R in R'. injection R' as <-. destruct (parts_udev _ _ _ _ _ _ _ P) as (_ & C). rewrite D in Ex. subst x core.
    destruct s as [|a s]; [contradiction|]. destruct H as [H|[H|[(t & H)|(c & t & u & H & Hc)]]]; try congruence; cbn [app] in H; try discriminate H.
    injection H as E1 E2 E3. destruct Hc as [Hc|Hc]; [apply Zs; left; congruence|rewrite Hc in E2; destruct s; discriminate E2]. }
  destruct (get_key_part k KEY_PART_CORE) as [core|] eqn:C; [|intros E; injection E as <- <-; right; split; [reflexivity|apply (No None (r_data v) 0); auto]].
  destruct (r_data v) as [|[|c x] y] eqn:D; [intros E; injection E as <- <-; right; split; [reflexivity|apply (No (Some core) [] 0); auto]
    |intros E; injection E as <- <-; right; split; [reflexivity|apply (No (Some core) ([] :: y) 0); eauto 6]|].
  destruct (Ascii.eqb c NUL || (length x =? 0)) eqn:Z.
  - intros E; injection E as <- <-. right. split; [reflexivity|]. apply (No (Some core) ((c :: x) :: y) 0); auto. right. right. right. exists c, x, y. split; [reflexivity|].
    apply orb_true_iff in Z as [Z|Z]; [left; apply Ascii.eqb_eq, Z|right; destruct x; [reflexivity|discriminate]].
  - destruct (string_at (c :: x)) as [s|] eqn:S; [|discriminate]. cbn [obind]. intros E. injection E as <- <-. left. eexists. split; [reflexivity|].
    destruct (udev_parts k core U C) as (op & dom & part & cat & id & P). apply orb_false_iff in Z as (Z1 & Z2).
    assert (Sp : exists rest, c :: x = s ++ NUL :: rest /\ ~ In NUL s).
    { clear - S. unfold string_at in S. remember (c :: x) as m eqn:Em. clear Em. destruct (strlen m) as [n|] eqn:El; [|discriminate]. injection S as <-.
      revert n El. induction m as [|a m IH]; intros n El; [discriminate|]. cbn [strlen] in El. destruct (Ascii.eqb_spec a NUL) as [->|Na].
      - injection El as <-. exists m. split; [reflexivity|intros []].
      - destruct (strlen m) as [j|]; [|discriminate]. cbn [option_map] in El. injection El as <-. destruct (IH j eq_refl) as (rest & Er & Nr). exists rest. cbn [firstn app].
        rewrite <- Er. split; [reflexivity|]. intros [H|H]; [congruence|contradiction]. }
    destruct Sp as (rest & Es & Ns). exists v, op, dom, part, cat, id, core, s, rest, y. repeat (split; [assumption|]). rewrite <- Es. split; [exact D|]. split; [|split; [exact Ns|reflexivity]].
    intros ->. cbn in Es. injection Es as -> _. discriminate.
Qed.
Lemma property_frame d d' k line : recs d' k = recs d k -> (property_line d k line <-> property_line d' k line).
Proof. intros E. unfold property_line. rewrite E. tauto. Qed.
Lemma lines_frame d d' keys lines : (forall k, In k keys -> recs d' k = recs d k) -> lines_of d' keys lines -> lines_of d keys lines.
Proof.
  intros H L. induction L as [|k line keys lines P L IH|k keys lines N L IH]; [constructor| |].
  - apply Lo_line; [apply (property_frame d d'); [apply H; left; reflexivity|exact P]|]. apply IH. intros x Hx. apply H. right. exact Hx.
  - apply Lo_none; [|apply IH; intros x Hx; apply H; right; exact Hx]. intros line P. apply (N line). apply (property_frame d d' k line); [apply H; left; reflexivity|exact P].
Qed.
Lemma lines_all vec keys : forall e e', NoDup keys -> export_all vec e keys = Ok (Some e') -> exists lines, e_lines e' = e_lines e ++ lines /\ lines_of (e_db e) keys lines.
Proof.
  induction keys as [|k keys IH]; intros e e' Nd; cbn [export_all].
  - intros E. injection E as <-. exists []. rewrite app_nil_r. split; [reflexivity|constructor].
  - destruct (export_one vec e k) as [[e1|]|] eqn:E1; [|discriminate|discriminate]. cbn [obind]. intros E.
    inversion Nd as [|? ? Nk Nd']; subst. destruct (IH e1 e' Nd' E) as (lines & El & Lo). clear IH E.
    assert (Fr : forall x, In x keys -> recs (e_db e1) x = recs (e_db e) x).
    { intros x Hx. assert (x <> k) by (intros ->; contradiction). unfold export_one in E1. destruct (recs (e_db e) k) as [v|]; [|injection E1 as <-; reflexivity].
      destruct (negb (has (r_flags v) FL_SYNC)); [injection E1 as <-; reflexivity|]. destruct (_ && vec k); [discriminate|].
      destruct (if ns_eqb _ _ then _ else _) as [(ls & key)|]; [|discriminate]. cbn [obind] in E1. injection E1 as <-. cbn [e_db with_recs recs]. apply put_other. congruence. }
    apply (lines_frame (e_db e)) in Lo; [|exact Fr]. rewrite El. clear El Fr Nd Nd' Nk e'.
    assert (G : (exists line, e_lines e1 = e_lines e ++ [line] /\ property_line (e_db e) k line) \/ (e_lines e1 = e_lines e /\ forall line, ~ property_line (e_db e) k line)).
    { unfold export_one in E1. destruct (recs (e_db e) k) as [v|] eqn:Er.
      2:{ injection E1 as <-. right. split; [reflexivity|]. intros line (v & ? & ? & ? & ? & ? & ? & ? & ? & ? & R & _). congruence. }
      rewrite has_SYNC in E1. destruct (N.testbit (r_flags v) 1) eqn:Ev; cbn [negb] in E1.
      2:{ injection E1 as <-. right. split; [reflexivity|]. intros line (v' & ? & ? & ? & ? & ? & ? & ? & ? & ? & R & F & _). congruence. }
      destruct (ns_eqb (get_ns_from_key k) NS_UDEV) eqn:U.
      - destruct (true && vec k); [discriminate|]. destruct (udev_line k (cleared v)) as [(ls & key)|] eqn:Ul; [|discriminate]. cbn [obind] in E1. injection E1 as <-. cbn [e_lines].
        apply udev_spec in U. destruct (line_lemma (e_db e) k v Er Ev U ls key Ul) as [(line & -> & P)|(-> & N)]; [left; exists line; split; [reflexivity|exact P]|right; rewrite app_nil_r; split; [reflexivity|exact N]].
      - cbn [andb] in E1. cbn [obind] in E1. injection E1 as <-. cbn [e_lines]. right. rewrite app_nil_r. split; [reflexivity|].
        intros line (v' & op & dom & part & cat & id & name & s & rest & y & _ & _ & P & _). destruct (parts_udev _ _ _ _ _ _ _ P) as (X & _). apply udev_spec in X. unfold is_udev in X. congruence. }
    destruct G as [(line & -> & P)|(-> & N)].
    + exists (line :: lines). rewrite <- app_assoc. split; [reflexivity|apply Lo_line; assumption].
    + exists lines. split; [reflexivity|apply Lo_none; assumption].
Qed.
Lemma sorted_nodup l : sorted l -> NoDup l.
Proof.
  intros H. induction H as [|a l H IH F]; constructor; [|exact IH]. intros I. rewrite Forall_forall in F. specialize (F a I). clear - F.
  induction a as [|c a IHa]; inversion F; subst; [lia|]. apply IHa. assumption.
Qed.
Lemma response_lemma : forall vec d keys lines l d', index_list d keys -> export vec keys d = Ok (Some (lines, l, d')) -> lines_of d keys lines.
Proof.
  intros vec d keys lines l d' (S & _) E. unfold export in E. destruct (export_all vec _ keys) as [[e|]|] eqn:A; cbn [obind] in E; try discriminate. injection E as <- _ _.
  destruct (lines_all vec keys _ _ (sorted_nodup _ S) A) as (lines & El & Lo). cbn [e_lines app e_db] in *. rewrite El. exact Lo.
Qed.
Lemma lines_in d keys lines : lines_of d keys lines -> forall k line, In k keys -> property_line d k line -> In line lines.
Proof.
  intros L. assert (Un : forall k a b, property_line d k a -> property_line d k b -> a = b).
  { intros k a b (v & op & dom & part & cat & id & name & s & rest & x & R & _ & P & D & _ & Z & ->) (v' & op' & dom' & part' & cat' & id' & name' & s' & rest' & x' & R' & _ & P' & D' & _ & Z' & ->).
    rewrite R in R'. injection R' as <-. rewrite D in D'. pose proof (decompose_unique _ _ P) as E. rewrite (decompose_unique _ _ P') in E.
    assert (name = name') as -> by congruence. assert (E1 : s ++ NUL :: rest = s' ++ NUL :: rest') by congruence.
    pose proof (string_ok s rest Z) as S1. rewrite E1, (string_ok s' rest' Z') in S1. injection S1 as ->. reflexivity. }
  induction L as [|k line keys lines P L IH|k keys lines N L IH]; intros k' line' I P'; [destruct I|destruct I as [<-|I]|destruct I as [<-|I]].
  - left. exact (Un _ _ _ P P').
  - right. exact (IH _ _ I P').
  - exfalso. exact (N _ P').
  - exact (IH _ _ I P').
Qed.
Lemma split_lemma : forall a b, Forall (fun x => ~ In NUL x) a -> Forall (fun x => ~ In NUL x) b ->
  List.concat (map (fun x => x ++ [NUL]) a) = List.concat (map (fun x => x ++ [NUL]) b) -> a = b.
Proof.
  assert (Cut : forall x y r t, ~ In NUL x -> ~ In NUL y -> (x ++ [NUL]) ++ r = (y ++ [NUL]) ++ t -> x = y /\ r = t).
  { induction x as [|c x IH]; intros [|e y] r t Nx Ny E; cbn in E.
    - injection E as ->. auto.
    - injection E as <- _. exfalso. apply Ny. left. reflexivity.
    - injection E as -> _. exfalso. apply Nx. left. reflexivity.
    - injection E as <- E. destruct (IH y r t) as (-> & ->); [intros I; apply Nx; right; exact I|intros I; apply Ny; right; exact I|exact E|auto]. }
  induction a as [|x a IH]; intros [|y b] Fa Fb E; [reflexivity|cbn in E; destruct y; discriminate|cbn in E; destruct x; discriminate|].
  inversion Fa; inversion Fb; subst. cbn [map List.concat] in E. destruct (Cut x y _ _ ltac:(assumption) ltac:(assumption) E) as (-> & E'). f_equal. apply IH; assumption.
Qed.
Lemma joined_in : forall l p c, In p l -> In c p -> In c (joined l).
Proof.
  induction l as [|x l IH]; [intros p c []|]. intros p c Hp Hc. destruct l as [|y l].
  - destruct Hp as [<-|[]]. exact Hc.
  - change (joined (x :: y :: l)) with (x ++ JOIN :: joined (y :: l)). apply in_or_app. destruct Hp as [<-|Hp]; [left; exact Hc|]. right. right. exact (IH p c Hp Hc).
Qed.
Lemma lines_nul d keys lines : Forall no_nul keys -> lines_of d keys lines -> exists ps, lines = map (fun x => x ++ [NUL]) ps /\ Forall (fun x => ~ In NUL x) ps.
Proof.
  intros F L. induction L as [|k line keys lines P L IH|k keys lines N L IH].
  - exists []. split; [reflexivity|constructor].
  - pose proof (Forall_inv F) as Nk. apply Forall_inv_tail in F. destruct (IH F) as (ps & -> & G). destruct P as (v & op & dom & part & cat & id & name & s & rest & x & _ & _ & Hp & _ & _ & Ns & ->).
    exists ((name ++ B "=" ++ s) :: ps). split; [cbn [map]; rewrite <- !app_assoc; reflexivity|]. constructor; [|exact G]. intros H. apply in_app_or in H as [H|H].
    + apply Nk. destruct Hp as (-> & _). apply (joined_in _ name); [cbn [In]; tauto|exact H].
    + destruct H as [H|H]; [discriminate H|contradiction].
  - apply Forall_inv_tail in F. exact (IH F).
Qed.
Lemma read_back_lemma d keys lines d' keys' lines' : Forall no_nul keys -> Forall no_nul keys' -> lines_of d keys lines -> lines_of d' keys' lines' -> List.concat lines = List.concat lines' -> lines = lines'.
Proof.
  intros F F' L L' E. destruct (lines_nul _ _ _ F L) as (ps & -> & G). destruct (lines_nul _ _ _ F' L') as (ps' & -> & G'). rewrite (split_lemma ps ps' G G' E). reflexivity.
Qed.
Lemma record_parts u w c : opt_no_colon (num_s (u_dev u)) -> exists part, has_parts (record_key u w NS_UDEV c) [[]; []; B "U"; part; []; []; c].
Proof.
  intros N. set (part := match num_s (u_dev u) with Some s => s | None => [] end). exists part.
  assert (Np : no_colon part) by (unfold part; destruct (num_s (u_dev u)); [exact N|intros []]).
  split; [unfold record_key; fold part; cbn [joined]; reflexivity|]. split; [discriminate|]. split; [cbn; lia|].
  intros i p E L. do 6 (destruct i as [|i]; [injection E as <-; first [exact Np|intros H; cbn in H; intuition discriminate]|]). lia.
Qed.
Lemma told_lemma : forall vec d u w c s rest f d0 d1 st d2 keys lines l d3, index_ok d0 -> opt_no_colon (num_s (u_dev u)) -> good_name NS_UDEV c -> no_nul w ->
  ~ list_key (record_key u w NS_UDEV c) -> s <> [] -> ~ In NUL s ->
  work vec d0 [] d -> (forall o, recs d (record_key u w NS_UDEV c) = Some o -> no_nul (r_owner o) /\ may_write o w) ->
  kv_set d u w NS_UDEV c (Some (s ++ NUL :: rest)) f = Ok (d1, 0%Z, st) ->
  work vec d1 [] d2 -> recs d2 (record_key u w NS_UDEV c) = recs d1 (record_key u w NS_UDEV c) ->
  index_list d2 keys -> export vec keys d2 = Ok (Some (lines, l, d3)) ->
  In (c ++ B "=" ++ s ++ [NUL]) lines.
Proof.
  intros vec d u w c s rest f d0 d1 st d2 keys lines l d3 I0 Nn G Nw Nl Ns Zs W0 Pm E W1 Rs (Sk & Ik) Ex.
  destruct (allowed_lemma d u w NS_UDEV c (Some (s ++ NUL :: rest)) f G Nw Pm) as (d1' & E' & R1 & _). rewrite E in E'. assert (d1' = d1) by congruence. subst d1'. clear E'.
  set (k := record_key u w NS_UDEV c) in *. destruct (record_parts u w c Nn) as (part & P). fold k in P.
  assert (T : tracked k) by (split; [exists ":"%char, (skipn 1 k); split; [left; reflexivity|reflexivity]|exact Nl]).
  assert (I2 : index_ok d2).
  { apply (work_index vec d1 [] d2 W1). pose proof (work_index vec d0 [] d W0 I0) as Id. intros x Tx. unfold kv_set in E.
    destruct (ns_eqb NS_UDEV NS_UNDEFINED || bad_name c); [discriminate|]. exact (kv_set_ix d u w (api_dom NS_UDEV) NS_UDEV c _ f d1 _ _ x E Tx (Id x Tx)). }
  assert (Pl : property_line d2 k (c ++ B "=" ++ s ++ [NUL])).
  { exists (new_rec u NS_UDEV w (Some (s ++ NUL :: rest)) f), [], [], part, [], [], c, s, rest, []. split; [rewrite Rs; exact R1|]. split; [|split; [exact P|split; [reflexivity|auto]]].
    cbn [new_rec r_flags]. change (ns_eqb NS_UDEV NS_UDEV) with true. cbn match. rewrite N.lor_spec. change (N.testbit 6 1) with true. apply orb_true_r. }
  apply (lines_in d2 keys lines) with (k := k); [exact (response_lemma vec d2 keys lines l d3 (conj Sk Ik) Ex)| |exact Pl].
  apply Ik, (I2 k T). exists (new_rec u NS_UDEV w (Some (s ++ NUL :: rest)) f). split; [rewrite Rs; exact R1|].
  cbn [new_rec r_flags]. change (ns_eqb NS_UDEV NS_UDEV) with true. cbn match. rewrite N.lor_spec. change (N.testbit 6 1) with true. apply orb_true_r.
Qed.
