From Verif Require Import Base Kvs_Model UbrKey_Model UbrDb_Model UbrPerm_Spec UbrPerm_Proofs UbrDelta_Model UbrDelta_Spec UbrDelta_Proofs UbrRec_Model UbrRec_Spec UbrRec_Proofs
  UbrSync_Model UbrSync_Spec UbrSync_Proofs UbrGen_Model UbrGen_Spec.
Local Open Scope nat_scope.
Local Notation concat := List.concat (only parsing).

Lemma archived_op k : archived_key k -> get_op_from_key k = OP_SET.
Proof.
  destruct k as [|c t]; [discriminate|]. unfold archived_key. cbn [hd_error]. intros E. injection E as ->.
  unfold get_op_from_key, get_key_part. change KEY_PART_OP with 0. cbn [skip_parts Nat.eqb KEY_PART_COUNT Nat.sub].
  destruct (Tok_Model.index _ _) as [[|i]|]; [reflexivity| |reflexivity]. cbn [firstn]. destruct (firstn i t); reflexivity.
Qed.
Definition kept_key (k : bytes) : Prop := main_key k \/ archived_key k.
Lemma kept_op k : kept_key k -> get_op_from_key k = OP_SET.
Proof. intros [H|H]; [apply main_op, H|apply archived_op, H]. Qed.
Lemma kept_canon k : kept_key k -> canonicalize_key k = k.
Proof.
  intros [H|H]; [apply main_canon, H|]. destruct k as [|c t]; [discriminate|]. unfold archived_key in H. cbn [hd_error] in H. injection H as ->. reflexivity.
Qed.
Lemma main_arch x k : main_key x -> x <> canonicalize_key (archive_key k).
Proof. intros M E. rewrite arch_canon in E. rewrite E in M. exact (arch_not_main _ M). Qed.
Lemma trans_frame st key owner seq a x : x <> canonicalize_key key -> (forall y, a = Some y -> x <> canonicalize_key y) ->
  recs (s_db (trans_unset st key owner seq a)) x = recs (s_db st) x
  /\ (In x (s_unset (trans_unset st key owner seq a)) <-> In x (s_unset st)).
Proof.
  intros N A. unfold trans_unset. cbv zeta. destruct (main_unset _ _ _); [|split; reflexivity]. cbn [s_db s_unset with_recs recs]. split.
  - destruct a as [y|]; [|reflexivity]. destruct (recs (s_db st) (canonicalize_key key)); [|reflexivity]. apply put_other. apply A. reflexivity.
  - rewrite in_app_iff. cbn [In]. split; [intros [H|[H|[]]]; [exact H|congruence]|intros H; left; exact H].
Qed.
Lemma step_frame st r : kept_key (s_key r) -> exists st', sync_step st r = Ok st'
  /\ forall x, main_key x -> x <> s_key r -> recs (s_db st') x = recs (s_db st) x /\ (In x (s_unset st') <-> In x (s_unset st)).
Proof.
  intros K. unfold sync_step. cbv zeta.
  assert (Op : (if s_vec r then get_op_from_key (s_key r) else OP_SET) = OP_SET) by (destruct (s_vec r); [apply kept_op, K|reflexivity]).
  rewrite Op. pose proof (kept_canon _ K) as C. destruct r as [vec k v]. cbn [s_vec s_key s_rec] in *.
  match goal with |- context [if ?u then _ else _] => destruct u end.
  - eexists. split; [reflexivity|]. intros x M N. destruct (has (r_flags v) FL_AR).
    + apply (trans_frame (set_rel st false)); [rewrite C; exact N|]. intros y E. injection E as <-. apply main_arch, M.
    + destruct (trans_frame (trans_unset (set_rel st false) k (r_owner v) (r_seq v) None) (archive_key k) (r_owner v) (r_seq v) None x (main_arch x k M)) as (R1 & U1); [discriminate|].
      destruct (trans_frame (set_rel st false) k (r_owner v) (r_seq v) None x) as (R2 & U2); [rewrite C; exact N|discriminate|].
      rewrite R1, R2, U1, U2. split; reflexivity.
  - eexists. split; [reflexivity|]. intros x M N. rewrite C.
    match goal with |- context [if main_set ?o v then ?a else _] => set (sa := a); set (old := o) end.
    assert (F : recs (s_db (if main_set old v then sa else st)) x = recs (s_db st) x
                /\ (In x (s_unset (if main_set old v then sa else st)) <-> In x (s_unset st))).
    { destruct (main_set old v); [|split; reflexivity]. unfold sa. cbn [s_db s_unset with_recs recs]. split; [|reflexivity].
      unfold old. destruct (recs (s_db st) k); [destruct (has (r_flags v) FL_AR)|]; rewrite ?put_other; try reflexivity; try exact N. apply main_arch, M. }
    destruct (has (r_flags v) FL_AR) eqn:Ar; [exact F|].
    destruct (trans_frame (set_rel (if main_set old v then sa else st) false) (archive_key k) (r_owner v) (r_seq v) None x (main_arch x k M)) as (R1 & U1); [discriminate|].
    rewrite R1, U1. exact F.
Qed.
Lemma step_new st r st' : main_key (s_key r) -> recs (s_db st) (s_key r) = None -> ~ In (s_key r) (s_unset st) -> sync_step st r = Ok st' ->
  (removal r -> view st' (s_key r) = None) /\ (~ removal r -> recs (s_db st') (s_key r) = Some (s_rec r) /\ ~ In (s_key r) (s_unset st')).
Proof.
  intros K No Nu E. unfold sync_step in E. cbv zeta in E.
  assert (Op : (if s_vec r then get_op_from_key (s_key r) else OP_SET) = OP_SET) by (destruct (s_vec r); [apply main_op, K|reflexivity]).
  rewrite Op in E. clear Op. pose proof (main_canon _ K) as C. pose proof (unset_bool r) as U. destruct r as [vec k v]. cbn [s_vec s_key s_rec] in *.
  match type of U with ?u = true <-> _ => destruct u eqn:Eu end.
  - split; [intros _|intros R; exfalso; apply R, U; reflexivity]. clear U. injection E as <-.
    assert (V : forall a, In k (s_unset (trans_unset (set_rel st false) k (r_owner v) (r_seq v) a))).
    { intros a. unfold trans_unset. cbv zeta. cbn [set_rel s_db]. rewrite C, No. cbn [main_unset s_unset]. apply in_or_app. right. left. reflexivity. }
    apply view_in. destruct (has (r_flags v) FL_AR); [apply V|].
    destruct (trans_frame (trans_unset (set_rel st false) k (r_owner v) (r_seq v) None) (archive_key k) (r_owner v) (r_seq v) None k (main_arch k k K)) as (_ & U1); [discriminate|].
    apply U1, V.
  - split; [intros R; apply U in R; discriminate|intros _]. clear U. injection E as <-. rewrite C, No. cbn [main_set].
    destruct (has (r_flags v) FL_AR); [cbn [s_db s_unset with_recs recs]; rewrite put_same; split; [reflexivity|exact Nu]|].
    match goal with |- context [trans_unset ?s ?a ?b ?c None] => destruct (trans_frame s a b c None k (main_arch k k K)) as (R1 & U1); [discriminate|] end.
    rewrite R1, U1. cbn [set_rel s_db s_unset with_recs recs]. rewrite put_same. split; [reflexivity|exact Nu].
Qed.
Lemma steps_load l : forall st, Forall (fun r => kept_key (s_key r)) l -> NoDup (map s_key l) ->
  (forall r, In r l -> main_key (s_key r) -> recs (s_db st) (s_key r) = None /\ ~ In (s_key r) (s_unset st)) ->
  exists st', sync_steps st l = Ok st'
    /\ (forall x, main_key x -> (forall r, In r l -> s_key r <> x) -> recs (s_db st') x = recs (s_db st) x /\ (In x (s_unset st') <-> In x (s_unset st)))
    /\ (forall r, In r l -> main_key (s_key r) -> (removal r -> view st' (s_key r) = None) /\ (~ removal r -> view st' (s_key r) = Some (s_rec r))).
Proof.
  induction l as [|r l IH]; intros st F N H.
  - exists st. split; [reflexivity|]. split; [split; reflexivity|intros r []].
  - inversion F as [|? ? Kr Kl]; subst. inversion N as [|? ? Nr Nl]; subst.
    destruct (step_frame st r Kr) as (s1 & E1 & Fr).
    destruct (IH s1 Kl Nl) as (s2 & E2 & F2 & G2).
    { intros q Hq Mq. destruct (Fr (s_key q) Mq) as (R & U); [intros E; apply Nr; rewrite <- E; apply in_map, Hq|].
      rewrite R, U. apply H; [right; exact Hq|exact Mq]. }
    exists s2. split; [cbn [sync_steps]; rewrite E1; exact E2|]. split.
    + intros x M Hx. destruct (F2 x M) as (R2 & U2); [intros q Hq; apply Hx; right; exact Hq|].
      destruct (Fr x M) as (R1 & U1); [intros E; exact (Hx r (or_introl eq_refl) (eq_sym E))|]. rewrite R2, U2, R1, U1. split; reflexivity.
    + intros q [<-|Hq] Mq; [|apply G2; assumption].
      destruct (H r (or_introl eq_refl) Mq) as (H1 & H2). destruct (step_new st r s1 Mq H1 H2 E1) as (A & B).
      destruct (F2 (s_key r) Mq) as (R2 & U2); [intros q Hq E; apply Nr; rewrite <- E; apply in_map, Hq|].
      split.
      * intros R. specialize (A R). unfold view, commit in *. cbn [with_recs recs] in *. rewrite fold_none in *.
        destruct (in_dec _ _ (s_unset s1)) as [I|I], (in_dec _ _ (s_unset s2)) as [J|J]; try reflexivity; [exfalso; apply J, U2, I|].
        rewrite R2. exact A.
      * intros R. destruct (B R) as (B1 & B2). rewrite view_out; [rewrite R2; exact B1|]. rewrite U2. exact B2.
Qed.

(* the saved records and their reading *)
Lemma strings_ok l : Forall (fun s => ~ In NUL s) l -> strings_at (map (fun s => s ++ [NUL]) l) = Ok l.
Proof. induction 1 as [|s l Hs Hl IH]; [reflexivity|]. cbn [map strings_at]. rewrite string_ok by exact Hs. cbn [obind]. rewrite IH. reflexivity. Qed.
Definition vflag (vec : bool) : N := if vec then VAL_FL_VECTOR else 0%N.
Lemma value_decoded vec k r : well_made vec r -> ~ In NUL k -> exists v, stored_value vec r = Ok v /\ good_record (Wrec (vflag vec) k v)
  /\ decode (Wrec (vflag vec) k v) = Ok (Srec vec k r).
Proof.
  intros (G & D) Nk. unfold stored_value. rewrite (header_lemma _ _ _ _ G). cbn [obind]. destruct vec.
  - eexists. split; [reflexivity|]. unfold data_prep. rewrite <- app_assoc. split.
    + unfold good_record, vflag, VAL_FL_VECTOR. cbn [w_flags w_key w_val]. split; [reflexivity|]. split; [exact Nk|]. split; [reflexivity|].
      unfold head4. cbn [app length nth]. rewrite !le_length. repeat split; lia.
    + unfold decode. cbn [w_val w_key vvalue_of obind].
      destruct (readers _ _ _ _ (padding_of (r_flags r) (r_owner r) ++ map (fun s => s ++ [NUL]) (r_data r)) G) as (-> & -> & -> & ->). cbn [obind].
      rewrite data_reader by exact G. cbn [obind]. rewrite strings_ok by exact D. cbn [obind]. destruct r; reflexivity.
  - eexists. split; [reflexivity|]. unfold data_prep. rewrite <- app_assoc. rewrite merged. split.
    + unfold good_record, vflag. cbn [w_flags w_key w_val]. split; [reflexivity|]. split; [exact Nk|]. split; [reflexivity|].
      unfold scalar_of. rewrite !app_length. cbn [length]. rewrite !le_length. lia.
    + unfold decode. cbn [w_val w_key vvalue_of]. rewrite scalar_split by exact G. cbn [obind].
      destruct (readers _ _ _ _ (padding_of (r_flags r) (r_owner r) ++ [concat (r_data r)]) G) as (-> & -> & -> & ->). cbn [obind].
      rewrite data_reader by exact G. cbn [obind].
      destruct D as [D|(x & Nx & D)]; rewrite D; cbn [concat]; [destruct r; cbn in *; rewrite D; reflexivity|].
      rewrite app_nil_r. destruct x as [|c x]; [contradiction|]. destruct r; cbn in *; rewrite D; reflexivity.
Qed.
Lemma dump_lemma vec d : (forall k r, recs d k = Some r -> well_made (vec k) r) ->
  (forall k r, recs d k = Some r -> persistent r -> get_ns_from_key k = NS_UDEV -> vec k = false) ->
  forall keys, Forall (fun k => ~ In NUL k) keys -> NoDup keys ->
  exists l sl, dump vec d keys = Ok (Some l) /\ Forall good_record l /\ decode_all l = Ok sl /\ NoDup (map s_key sl)
    /\ (forall q, In q sl -> In (s_key q) keys /\ recs d (s_key q) = Some (s_rec q) /\ persistent (s_rec q) /\ s_vec q = vec (s_key q))
    /\ (forall k r, In k keys -> recs d k = Some r -> persistent r -> In (Srec (vec k) k r) sl).
Proof.
  intros W V. induction keys as [|k keys IH]; intros Hn Nd.
  - exists [], []. split; [reflexivity|]. split; [constructor|]. split; [reflexivity|]. split; [constructor|]. split; [intros q []|intros k r []].
  - inversion Hn as [|? ? N1 N2]; subst. inversion Nd as [|? ? D1 D2]; subst. destruct (IH N2 D2) as (l & sl & E & G & De & Nk & A & C). clear IH.
    cbn [dump]. destruct (recs d k) as [r|] eqn:R.
    2:{ exists l, sl. split; [exact E|]. split; [exact G|]. split; [exact De|]. split; [exact Nk|]. split.
        - intros q Hq. destruct (A q Hq) as (X & Y). split; [right; exact X|exact Y].
        - intros k' r' [<-|Hk] R' P; [congruence|exact (C k' r' Hk R' P)]. }
    change FL_PERSIST with (2 ^ 2)%N. rewrite has_bit. destruct (N.testbit (r_flags r) 2) eqn:P; cbn [negb].
    2:{ exists l, sl. split; [exact E|]. split; [exact G|]. split; [exact De|]. split; [exact Nk|]. split.
        - intros q Hq. destruct (A q Hq) as (X & Y). split; [right; exact X|exact Y].
        - intros k' r' [<-|Hk] R' P'; [unfold persistent in P'; congruence|exact (C k' r' Hk R' P')]. }
    assert (Un : ns_eqb (get_ns_from_key k) NS_UDEV && vec k = false).
    { destruct (vec k) eqn:Ev; [|apply andb_false_r]. rewrite andb_true_r. destruct (get_ns_from_key k) eqn:Ens; try reflexivity. specialize (V k r R P Ens). congruence. }
    rewrite Un. destruct (value_decoded (vec k) k r (W k r R) N1) as (v & Ev & Gv & Dv). rewrite Ev, E. cbn [obind].
    exists (Wrec (vflag (vec k)) k v :: l), (Srec (vec k) k r :: sl). split; [reflexivity|]. split; [constructor; assumption|].
    split; [cbn [decode_all]; rewrite Dv; cbn [obind]; rewrite De; reflexivity|]. split.
    { cbn [map s_key]. constructor; [|exact Nk]. intros Hi. apply in_map_iff in Hi as (q & Eq & Hq). destruct (A q Hq) as (X & _). congruence. }
    split.
    + intros q [<-|Hq]; [cbn [s_key s_rec s_vec]; split; [left; reflexivity|split; [exact R|split; [exact P|reflexivity]]]|].
      destruct (A q Hq) as (X & Y). split; [right; exact X|exact Y].
    + intros k' r' [<-|Hk] R' P'; [left; congruence|right; exact (C k' r' Hk R' P')].
Qed.
Lemma load_lemma vec d keys : savable vec d keys -> exists file, save vec d keys = Ok (Some file)
  /\ ((N.of_nat (length file) <= 67108864)%N -> exists d0, load_kv_store (Some file) = Ok d0
      /\ forall k, main_key k ->
           (forall r, recs d k = Some r -> persistent r -> ~ removal (Srec (vec k) k r) -> recs d0 k = Some r)
           /\ (forall r, recs d k = Some r -> ~ persistent r \/ removal (Srec (vec k) k r) -> recs d0 k = None)
           /\ (recs d k = None -> recs d0 k = None)).
Proof.
  intros ((Nd & All & Ks) & W & V).
  destruct (dump_lemma vec d W V keys) as (l & sl & E & G & De & Nk & A & C); [revert Ks; apply Forall_impl; tauto|exact Nd|].
  exists (write_message l). unfold save. rewrite E. split; [reflexivity|]. intros Sz.
  destruct (steps_load sl (Sst empty_db [] true)) as (st & Es & F & H).
  { apply Forall_forall. intros q Hq. destruct (A q Hq) as (X & _). rewrite Forall_forall in Ks. exact (proj1 (Ks _ X)). }
  { exact Nk. }
  { intros r _ _. split; [reflexivity|intros []]. }
  exists (commit st). split.
  { unfold load_kv_store, sync_main_kv_store. rewrite message_lemma by assumption. cbn [obind]. rewrite De. cbn [obind]. unfold sync_main. rewrite Es. reflexivity. }
  intros k M. fold (view st k).
  assert (Absent : (forall q, In q sl -> s_key q <> k) -> view st k = None).
  { intros Hk. destruct (F k M Hk) as (R & U). rewrite view_out; [rewrite R; reflexivity|]. rewrite U. intros []. }
  split; [|split].
  - intros r R P Nr. assert (I : In (Srec (vec k) k r) sl) by (apply C; [apply All; congruence|exact R|exact P]).
    exact (proj2 (H _ I M) Nr).
  - intros r R [P|Rm].
    + apply Absent. intros q Hq <-. destruct (A q Hq) as (_ & X & Y & _). rewrite R in X. injection X as ->. contradiction.
    + destruct (N.testbit (r_flags r) 2) eqn:P.
      * assert (I : In (Srec (vec k) k r) sl) by (apply C; [apply All; congruence|exact R|exact P]). exact (proj1 (H _ I M) Rm).
      * apply Absent. intros q Hq <-. destruct (A q Hq) as (_ & X & Y & _). rewrite R in X. injection X as ->. unfold persistent in Y. congruence.
  - intros R. apply Absent. intros q Hq <-. destruct (A q Hq) as (_ & X & _). congruence.
Qed.

(* the generation number *)
Definition gen_rec (g : N) : rec := Rec 0 245 g (B "/") [le 2 g].
Lemma key_gen : KEY_GENERATION = B "::G::::#DBGEN". Proof. reflexivity. Qed.
Lemma key_boot : KEY_BOOT_ID = B "::G::::#BOOTID". Proof. reflexivity. Qed.
Lemma number_gen g : (g < 65536)%N -> number_of (gen_rec g) = Ok g.
Proof. intros L. unfold number_of, gen_rec. cbn [r_data concat]. rewrite app_nil_r. apply number_le2. exact L. Qed.
Lemma start_none b : exists d, start None b = Ok (d, 1%N) /\ recs d (B "::G::::#DBGEN") = Some (gen_rec 1)
  /\ forall k, k <> B "::G::::#DBGEN" -> k <> B "::G::::#BOOTID" -> recs d k = None.
Proof.
  eexists. split; [reflexivity|]. split; [reflexivity|]. intros k N1 N2. unfold set_up_boot_id. cbn [with_recs recs].
  rewrite !put_other; [reflexivity| |]; rewrite ?key_gen, ?key_boot; assumption.
Qed.
Lemma start_some file b d0 : load_kv_store (Some file) = Ok d0 ->
  (recs d0 (B "::G::::#DBGEN") = None -> exists d, start (Some file) b = Ok (d, 1%N) /\ recs d (B "::G::::#DBGEN") = Some (gen_rec 1))
  /\ (forall g, (g < 65536)%N -> recs d0 (B "::G::::#DBGEN") = Some (gen_rec g) ->
      exists d, start (Some file) b = Ok (d, ((g + 1) mod 65536)%N) /\ recs d (B "::G::::#DBGEN") = Some (gen_rec ((g + 1) mod 65536))
        /\ forall k, k <> B "::G::::#DBGEN" -> k <> B "::G::::#BOOTID" -> recs d k = recs d0 k).
Proof.
  intros L. unfold start. rewrite L. cbn [obind]. unfold set_up_generation. rewrite key_gen. split.
  - intros ->. cbn [obind]. eexists. split; [reflexivity|]. unfold set_up_boot_id. cbn [with_recs recs].
    rewrite put_other; [rewrite put_same; reflexivity|rewrite key_boot; discriminate].
  - intros g Hg ->. rewrite number_gen by exact Hg. cbn [obind]. eexists. split; [reflexivity|]. unfold set_up_boot_id. cbn [with_recs recs]. split.
    + rewrite put_other; [rewrite put_same; reflexivity|rewrite key_boot; discriminate].
    + intros k N1 N2. rewrite !put_other; [reflexivity| |]; rewrite ?key_boot; assumption.
Qed.
Lemma again_lemma vec d keys g b : savable vec d keys -> vec (B "::G::::#DBGEN") = false -> recs d (B "::G::::#DBGEN") = Some (gen_rec g) -> (g < 65536)%N ->
  exists file, save vec d keys = Ok (Some file) /\ ((N.of_nat (length file) <= 67108864)%N ->
    exists d', start (Some file) b = Ok (d', ((g + 1) mod 65536)%N) /\ recs d' (B "::G::::#DBGEN") = Some (gen_rec ((g + 1) mod 65536))
      /\ forall k, main_key k -> k <> B "::G::::#DBGEN" -> k <> B "::G::::#BOOTID" ->
           (forall r, recs d k = Some r -> persistent r -> ~ removal (Srec (vec k) k r) -> recs d' k = Some r)
           /\ (forall r, recs d k = Some r -> ~ persistent r \/ removal (Srec (vec k) k r) -> recs d' k = None)
           /\ (recs d k = None -> recs d' k = None)).
Proof.
  intros S V R Hg. destruct (load_lemma vec d keys S) as (file & E & L). exists file. split; [exact E|]. intros Sz.
  destruct (L Sz) as (d0 & E0 & K). destruct (start_some file b d0 E0) as (_ & T).
  assert (R0 : recs d0 (B "::G::::#DBGEN") = Some (gen_rec g)).
  { apply (proj1 (K (B "::G::::#DBGEN") eq_refl)); [exact R|reflexivity|]. rewrite V. intros (X & _). discriminate X. }
  destruct (T g Hg R0) as (d' & Ed & Rd & Ot). exists d'. split; [exact Ed|]. split; [exact Rd|].
  intros k M N1 N2. rewrite (Ot k N1 N2). exact (K k M).
Qed.
Lemma life_lemma gs d : life gs d -> forall n, length gs = n -> (N.of_nat n < 65536)%N ->
  recs d (B "::G::::#DBGEN") = Some (gen_rec (N.of_nat n)) /\ gs = map N.of_nat (rev (seq 1 n)).
Proof.
  induction 1 as [b d g E|gs d d' L IH S|gs d vec keys file b d' g L IH S V E Sz St]; intros n Ln B.
  - subst n. destruct (start_none b) as (d0 & E0 & R0 & _). rewrite E in E0. injection E0 as -> ->. split; [exact R0|reflexivity].
  - destruct (IH n Ln B) as (R & G). split; [rewrite S; exact R|exact G].
  - cbn [length] in Ln. destruct n as [|n]; [discriminate|]. injection Ln as Ln. destruct (IH n Ln) as (R & G); [lia|].
    destruct (again_lemma vec d keys (N.of_nat n) b S V R) as (file' & E' & T); [lia|].
    rewrite E in E'. injection E' as <-. destruct (T Sz) as (d1 & E1 & R1 & _). rewrite St in E1. injection E1 as <- ->.
    assert (M : ((N.of_nat n + 1) mod 65536)%N = N.of_nat (Datatypes.S n)) by (rewrite N.mod_small; clear - B; lia).
    rewrite M in *. split; [exact R1|]. rewrite seq_S, rev_app_distr. cbn [rev app map]. rewrite G. reflexivity.
Qed.
Lemma increasing_lemma gs d : life gs d -> (N.of_nat (length gs) < 65536)%N -> forall newer g older, gs = newer ++ g :: older -> forall g', In g' older -> (g' < g)%N.
Proof.
  intros L B. destruct (life_lemma gs d L (length gs) eq_refl B) as (_ & G). revert G. generalize (length gs) as n. clear. intros n.
  revert gs. induction n as [|n IH]; intros gs ->; intros newer g older E g' I.
  - destruct newer; discriminate.
  - rewrite seq_S, rev_app_distr in E. cbn [rev app map] in E. destruct newer as [|x newer].
    + injection E as <- <-. apply in_map_iff in I as (m & <- & Hm). apply in_rev in Hm. apply in_seq in Hm. lia.
    + injection E as _ E. exact (IH _ eq_refl newer g older E g' I).
Qed.
Lemma too_big_lemma l b : Forall good_record l -> (67108864 < N.of_nat (length (write_message l)) < 2 ^ 32)%N ->
  exists d, start (Some (write_message l)) b = Ok (d, 1%N) /\ forall k, k <> B "::G::::#DBGEN" -> k <> B "::G::::#BOOTID" -> recs d k = None.
Proof.
  intros G S. assert (L : load_kv_store (Some (write_message l)) = Ok empty_db).
  { unfold load_kv_store, sync_main_kv_store. rewrite too_big by assumption. reflexivity. }
  unfold start. rewrite L. cbn [obind]. eexists. split; [reflexivity|]. intros k N1 N2. unfold set_up_boot_id. cbn [with_recs recs].
  rewrite !put_other; [reflexivity| |]; rewrite ?key_gen, ?key_boot; assumption.
Qed.
Lemma cut_lemma f b : length f < 4 -> exists d, start (Some f) b = Ok (d, 1%N).
Proof.
  intros L. unfold start, load_kv_store, sync_main_kv_store, read_message. destruct (Nat.ltb_spec (length f) 4); [|lia]. cbn [obind].
  eexists. reflexivity.
Qed.
Lemma wraps_lemma vec d keys b : savable vec d keys -> vec (B "::G::::#DBGEN") = false -> recs d (B "::G::::#DBGEN") = Some (gen_rec 65535) ->
  exists file, save vec d keys = Ok (Some file) /\ ((N.of_nat (length file) <= 67108864)%N -> exists d', start (Some file) b = Ok (d', 0%N)).
Proof.
  intros S V R. destruct (again_lemma vec d keys 65535 b S V R) as (file & E & T); [reflexivity|]. exists file. split; [exact E|].
  intros Sz. destruct (T Sz) as (d' & E' & _). exists d'. exact E'.
Qed.
