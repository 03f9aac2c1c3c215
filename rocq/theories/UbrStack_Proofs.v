From Verif Require Import Base Kvs_Model Tok_Model UtilStr_Model UbrKey_Model UbrKey_Spec UbrKey_Proofs UbrDb_Model UbrPerm_Proofs UbrDelta_Model UbrDelta_Spec UbrDelta_Proofs
  Tok_Proofs UbrRec_Model UbrRec_Proofs UbrSync_Proofs UbrStack_Model UbrStack_Spec.
Local Open Scope nat_scope.

Ltac nocol := intros H; vm_compute in H; decompose [or] H; (discriminate || contradiction).
Lemma parts_nocol (l : list bytes) : Forall no_colon l -> forall i p, nth_error l i = Some p -> i < 6 -> no_colon p.
Proof. intros F i p E _. rewrite Forall_forall in F. apply F. exact (nth_error_In _ _ E). Qed.
Lemma dseq_parts q : no_colon q -> has_parts (dseq_item q) [[]; B "ALS"; B "M"; B "/"; B "dseq"; q; []].
Proof.
  intros Nq. split; [|split; [discriminate|split; [cbn; lia|]]].
  - unfold dseq_item. cbn [joined]. vm_compute (B _). reflexivity.
  - apply parts_nocol. repeat (constructor; [first [exact Nq|nocol]|]). constructor.
Qed.
Lemma dev_parts u : no_colon u -> has_parts (dev_item u) [[]; []; B "D"; u; []; []; []].
Proof.
  intros Nq. split; [|split; [discriminate|split; [cbn; lia|]]].
  - unfold dev_item. cbn [joined]. vm_compute (B _). reflexivity.
  - apply parts_nocol. repeat (constructor; [first [exact Nq|nocol]|]). constructor.
Qed.
Lemma last_of key l : has_parts key l -> exists p, decompose_key key = (p, length l - 1).
Proof.
  intros H. pose proof (decompose_unique key l H) as E. destruct (decompose_lemma key) as (_ & L). destruct (decompose_key key) as (p, n).
  cbn [fst snd] in *. subst p n. exists l. reflexivity.
Qed.
Lemma dseq_ns q : no_colon q -> get_key_part (dev_item q) KEY_PART_NS_PART = Some q.
Proof. intros N. apply (get_part_lemma _ _ 3 q (dev_parts q N)); [lia|]. split; [reflexivity|right; cbn; lia]. Qed.
Lemma dseq_id q : no_colon q -> get_key_part (dseq_item q) KEY_PART_ID = Some q.
Proof. intros N. apply (get_part_lemma _ _ 5 q (dseq_parts q N)); [lia|]. split; [reflexivity|right; cbn; lia]. Qed.
Lemma dev_inj u v : no_colon u -> no_colon v -> dev_item u = dev_item v -> u = v.
Proof. intros Nu Nv E. pose proof (dseq_ns u Nu) as A. rewrite E, (dseq_ns v Nv) in A. congruence. Qed.
Lemma dseq_inj u v : no_colon u -> no_colon v -> dseq_item u = dseq_item v -> u = v.
Proof. intros Nu Nv E. pose proof (dseq_id u Nu) as A. rewrite E, (dseq_id v Nv) in A. congruence. Qed.
Lemma main_item_dev u s : canonicalize_key (dev_item u ++ s) = dev_item u ++ s. Proof. reflexivity. Qed.
Lemma main_item_dseq u s : canonicalize_key (dseq_item u ++ s) = dseq_item u ++ s. Proof. reflexivity. Qed.

(* copying an id *)
Lemma copy_ok s junk : id_ok s -> length junk = 37 -> copy_part (Some s) junk 0 (N.of_nat (length junk)) = Ok (Some (s ++ NUL :: skipn (length s + 1) junk)).
Proof.
  intros (_ & _ & L) Lj. unfold copy_part. rewrite Lj.
  assert (B1 : (INT_MAX <? N.of_nat (length s))%N = false) by (unfold INT_MAX; clear - L; lia). rewrite B1.
  assert (B2 : ((N.of_nat 37 =? 0) || (N.of_nat 37 - 1 <? N.of_nat (length s)))%N = false) by (clear - L; lia). rewrite B2.
  unfold put_bytes. rewrite app_length. cbn [length].
  assert (B3 : (0 + (length s + 1) <=? length junk) = true) by (rewrite Lj; clear - L; lia). rewrite B3. cbn [obind firstn app].
  do 2 f_equal. rewrite <- app_assoc. reflexivity.
Qed.
Lemma id_read s rest : id_ok s -> string_at (s ++ NUL :: rest) = Ok s.
Proof. intros (_ & N & _). apply string_ok, N. Qed.
Lemma devid_of d q u junk r : id_ok u -> id_ok q -> length junk = 37 -> recs d (members_of (dseq_item q)) = Some r -> r_data r = [dev_item u] ->
  dev_key_to_devid d (dseq_item q) junk = Ok (0%Z, u ++ NUL :: skipn (length u + 1) junk).
Proof.
  intros Hu Hq Lj R D. unfold dev_key_to_devid. destruct (last_of _ _ (dseq_parts q (proj1 Hq))) as (p & ->). cbn [length Nat.sub Nat.eqb KEY_PART_CORE negb].
  unfold raw_alias_to_devid, cat_prefix_and_key. rewrite main_item_dseq. unfold members_of in R. change K_MEMBERS with (B "#GMB"). rewrite R, D.
  cbn [alias_loop]. unfold copy_ns_part_from_key. rewrite dseq_ns by apply Hu. rewrite copy_ok by assumption. reflexivity.
Qed.

(* the filters *)
Lemma filter_all values filter : (forall x, In x values -> exists l, has_parts x l /\ accepts filter l) -> get_key_strv values filter = Ok values.
Proof.
  intros H. destruct (strv_lemma values filter) as (r & E & keep & -> & K). rewrite E. f_equal.
  assert (F : forall v, In v values -> keep v = true) by (intros v Hv; destruct (H v Hv) as (l & P & A); apply (K v l Hv P), A).
  clear - F. induction values as [|v values IH]; [reflexivity|]. cbn [List.filter]. rewrite F by (left; reflexivity). f_equal. apply IH. intros w Hw. apply F. right. exact Hw.
Qed.
Lemma accepts_dseq q : accepts dseq_filter [[]; B "ALS"; B "M"; B "/"; B "dseq"; q; []].
Proof.
  intros i p x Hi Hp Hx. cbn [length Nat.sub] in Hi.
  do 6 (destruct i as [|i]; [vm_compute in Hp, Hx; congruence|]). lia.
Qed.
Definition dev_filter : key_spec := KeySpec None OP_SET None NS_DEVICE None None None None.
Lemma accepts_dev u : accepts dev_filter [[]; []; B "D"; u; []; []; []].
Proof.
  intros i p x Hi Hp Hx. cbn [length Nat.sub] in Hi.
  do 6 (destruct i as [|i]; [vm_compute in Hp, Hx; congruence|]). lia.
Qed.
Lemma other_parts x : other_item x -> exists l, has_parts x l /\ ~ accepts dseq_filter l.
Proof.
  intros (dom & ns & part & cat & id & N1 & N2 & N3 & N4 & N5 & -> & Ne). exists [[]; dom; ns; part; cat; id; []]. split.
  - split; [|split; [discriminate|split; [cbn; lia|]]]; [cbn [joined]; vm_compute (B ":"); cbn [app]; reflexivity|].
    apply parts_nocol. repeat (constructor; [first [assumption|intros []]|]). constructor.
  - intros A. apply Ne. assert (dom = B "ALS") by (apply (A 1); [cbn; lia|reflexivity|reflexivity]).
    assert (ns = B "M") by (apply (A 2); [cbn; lia|reflexivity|reflexivity]).
    assert (part = B "/") by (apply (A 3); [cbn; lia|reflexivity|reflexivity]).
    assert (cat = B "dseq") by (apply (A 4); [cbn; lia|reflexivity|reflexivity]). congruence.
Qed.
Lemma filter_one a b q : no_colon q -> Forall other_item (a ++ b) -> get_key_strv (a ++ dseq_item q :: b) dseq_filter = Ok [dseq_item q].
Proof.
  intros Nq F. destruct (strv_lemma (a ++ dseq_item q :: b) dseq_filter) as (r & E & keep & -> & K). rewrite E. f_equal.
  assert (N : forall l, (forall x, In x l -> In x (a ++ b)) -> List.filter keep l = []).
  { induction l as [|x l IH]; intros H; [reflexivity|]. cbn [List.filter]. rewrite Forall_forall in F.
    destruct (other_parts x) as (p & P & A); [apply F, H; left; reflexivity|].
    destruct (keep x) eqn:Ek; [exfalso; apply A, (K x p); [|exact P|exact Ek]|apply IH; intros y Hy; apply H; right; exact Hy].
    specialize (H x (or_introl eq_refl)). rewrite in_app_iff in *. destruct H; [left; assumption|right; right; assumption]. }
  rewrite filter_app. cbn [List.filter]. rewrite (N a), (N b); [|intros x Hx; apply in_or_app; auto|intros x Hx; apply in_or_app; auto].
  assert (keep (dseq_item q) = true) as ->; [|reflexivity].
  apply (K (dseq_item q) [[]; B "ALS"; B "M"; B "/"; B "dseq"; q; []]); [apply in_or_app; right; left; reflexivity|apply dseq_parts, Nq|apply accepts_dseq].
Qed.
Lemma dsq_of d q u junk r a b : id_ok u -> id_ok q -> length junk = 37 -> recs d (in_of (dev_item u)) = Some r -> r_data r = a ++ dseq_item q :: b ->
  Forall other_item (a ++ b) -> dev_key_to_dsq d (dev_item u) junk = Ok (0%Z, q ++ NUL :: skipn (length q + 1) junk).
Proof.
  intros Hu Hq Lj R D F. unfold dev_key_to_dsq. destruct (last_of _ _ (dev_parts u (proj1 Hu))) as (p & ->). cbn [length Nat.sub Nat.eqb KEY_PART_CORE negb].
  unfold cat_prefix_and_key. rewrite main_item_dev. unfold in_of in R. change K_IN with (B "#GIN"). rewrite R, D.
  rewrite filter_one by (try exact F; apply Hq). cbn [obind]. unfold copy_id_from_key. rewrite dseq_id by apply Hq. rewrite copy_ok by assumption. reflexivity.
Qed.

(* the direct neighbours *)
Definition opt_of (l : list bytes) : option (list bytes) := match l with [] => None | _ => Some l end.
Lemma get_members d owner k key : canonicalize_key key = k -> readable d k ->
  exists c fl, cmd_get_key_value d owner key = (match members d k with [] => None | l => Some (l, fl) end, c) /\ (c = 0 \/ c = - ENOENT)%Z.
Proof.
  intros E R. unfold members. destruct (recs d k) as [r|] eqn:Er.
  - specialize (R r Er). pose proof Er as Er'. rewrite <- E in Er'. unfold cmd_get_key_value. rewrite Er'.
    assert (H : has (r_flags r) FL_FRG_RD = true /\ has (r_flags r) FL_SUB_RD = true /\ has (r_flags r) FL_SUP_RD = true).
    { repeat split; unfold has; match goal with |- context [N.land _ ?b] => assert (N.land (r_flags r) b = b) as ->; [|reflexivity] end.
      all: match goal with |- N.land _ ?b = _ => replace b with (N.land 224 b) at 1 by reflexivity; rewrite N.land_assoc, R; reflexivity end. }
    destruct H as (-> & -> & ->). exists 0%Z, (r_flags r). destruct (mod_match (r_owner r) owner); (split; [reflexivity|left; reflexivity]).
  - unfold cmd_get_key_value. rewrite E, Er. exists (- ENOENT)%Z, 0%N. split; [reflexivity|right; reflexivity].
Qed.
Lemma compose_dev u : canonicalize_key (compose_key (KeySpec None OP_SET None NS_DEVICE (Some u) None None (Some K_MEMBERS))) = members_of (dev_item u).
Proof.
  unfold compose_key, do_compose_key, members_of, dev_item. cbn [ks_extra ks_op ks_dom ks_ns ks_ns_part ks_id_cat ks_id ks_core op_prefix ns_prefix or_empty app].
  rewrite <- !app_assoc. reflexivity.
Qed.
Lemma compose_dseq q : canonicalize_key (compose_key (KeySpec None OP_SET (Some DOM_ALIAS) NS_MODULE (Some OWNER_CORE) (Some (B "dseq")) (Some q) (Some K_IN)))
  = in_of (dseq_item q).
Proof.
  unfold compose_key, do_compose_key, in_of, dseq_item. cbn [ks_extra ks_op ks_dom ks_ns ks_ns_part ks_id_cat ks_id ks_core op_prefix ns_prefix or_empty app].
  rewrite <- !app_assoc. reflexivity.
Qed.
Lemma imm_down d devs owner junk a m key u q : devices d devs -> length junk = 37 -> downwards m = true -> In (u, q) devs -> asks_down a key u q ->
  get_dev_imm_deps d owner junk a m key = Ok (0%Z, opt_of (members d (members_of (dev_item u)))).
Proof.
  intros D Lj M I A. destruct (D u q I) as (Hu & Hq & (r & R & Rd) & _ & Rb & _ & Lo & _). unfold get_dev_imm_deps. rewrite M.
  assert (E : exists id rest, (match key with Some k => dev_key_to_devid d k junk | None => let! buf := put_bytes junk 0 [NUL] in Ok (0%Z, buf) end)
                = Ok (0%Z, id ++ NUL :: rest) /\ string_at (id ++ NUL :: rest) = Ok id
                  /\ match id with [] => get_ns_part (u_dev (a_cmd a)) owner NS_DEVICE | _ => id end = u).
  { destruct A as [(-> & Ec)| ->].
    - exists [], (skipn 1 junk). unfold put_bytes. cbn [length Nat.add]. rewrite Lj. cbn [Nat.leb obind firstn app]. split; [reflexivity|]. split; [reflexivity|].
      unfold get_ns_part. rewrite Ec. reflexivity.
    - exists u, (skipn (length u + 1) junk). split; [apply (devid_of d q u junk r); assumption|]. split; [apply id_read, Hu|].
      destruct u; [destruct Hu as (_ & _ & L); cbn in L; lia|reflexivity]. }
  destruct E as (id & rest & -> & Es & Eu). cbn [obind Z.ltb Z.compare]. rewrite Es. cbn [obind]. rewrite Eu.
  destruct (get_members d owner _ _ (compose_dev u) Rb) as (c & fl & -> & Hc).
  assert (Bc : ((c <? 0)%Z && negb (c =? - ENOENT)%Z) = false) by (destruct Hc as [->| ->]; reflexivity). rewrite Bc.
  destruct (members d (members_of (dev_item u))) as [|x l] eqn:El; [reflexivity|]. rewrite filter_all; [reflexivity|].
  intros y Hy. destruct (Lo y Hy) as (v & w & Iw & ->). destruct (D v w Iw) as (_ & Hw & _).
  eexists. split; [apply dseq_parts, Hw|apply accepts_dseq].
Qed.
Lemma imm_up d devs owner junk a m key u q : devices d devs -> length junk = 37 -> downwards m = false -> In (u, q) devs -> asks_up a key u q ->
  get_dev_imm_deps d owner junk a m key = Ok (0%Z, opt_of (members d (in_of (dseq_item q)))).
Proof.
  intros D Lj M I A. destruct (D u q I) as (Hu & Hq & _ & (r & l1 & l2 & R & Rd & Ot) & _ & Rb & _ & Up & _). unfold get_dev_imm_deps. rewrite M.
  assert (E : exists id rest, (match key with Some k => dev_key_to_dsq d k junk | None => let! buf := put_bytes junk 0 [NUL] in Ok (0%Z, buf) end)
                = Ok (0%Z, id ++ NUL :: rest) /\ string_at (id ++ NUL :: rest) = Ok id
                  /\ match id with [] => a_dsq a | _ => Some id end = Some q).
  { destruct A as [(-> & Ec)| ->].
    - exists [], (skipn 1 junk). unfold put_bytes. cbn [length Nat.add]. rewrite Lj. cbn [Nat.leb obind firstn app]. split; [reflexivity|]. split; [reflexivity|].
      exact Ec.
    - exists q, (skipn (length q + 1) junk). split; [apply (dsq_of d q u junk r l1 l2); assumption|]. split; [apply id_read, Hq|].
      destruct q; [destruct Hq as (_ & _ & L); cbn in L; lia|reflexivity]. }
  destruct E as (id & rest & -> & Es & Eu). cbn [obind Z.ltb Z.compare]. rewrite Es. cbn [obind]. rewrite Eu.
  destruct (get_members d owner _ _ (compose_dseq q) Rb) as (c & fl & -> & Hc).
  assert (Bc : ((c <? 0)%Z && negb (c =? - ENOENT)%Z) = false) by (destruct Hc as [->| ->]; reflexivity). rewrite Bc.
  destruct (members d (in_of (dseq_item q))) as [|x l] eqn:El; [reflexivity|]. fold dev_filter. rewrite filter_all; [reflexivity|].
  intros y Hy. destruct (Up y Hy) as (v & w & Iw & ->). destruct (D v w Iw) as (Hv & _).
  eexists. split; [apply dev_parts, Hv|apply accepts_dev].
Qed.

(* the recursion, on any relation of keys *)
Section Engine.
  Variables (d : db) (owner junk : bytes) (a : asker) (m : search) (next : bytes -> list bytes) (K : bytes -> Prop).
  Hypothesis deps : forall k, K k -> get_dev_imm_deps d owner junk a m (Some k) = Ok (0%Z, opt_of (next k)).
  Hypothesis closed : forall k x, K k -> In x (next k) -> K x.
  Notation get fuel := (fun k => dev_stack_get fuel d owner junk a m (Some k)).
  Definition ans (key : option bytes) (l : list bytes) : Prop :=
    exists n, forall fuel, n <= fuel -> dev_stack_get fuel d owner junk a m key = Some (Ok (0%Z, opt_of l)).
  (* the keys from those of l on, over any number of steps *)
  Inductive from : list bytes -> bytes -> Prop :=
  | Fr_in : forall l x, In x l -> from l x
  | Fr_step : forall l y x, In y l -> from (next y) x -> from l x.
  Lemma from_nil x : ~ from [] x. Proof. intros H; inversion H; contradiction. Qed.
  Lemma from_cons k l x : from (k :: l) x <-> x = k \/ from (next k) x \/ from l x.
  Proof.
    split.
    - intros H; inversion H as [? ? I|? y ? I F]; subst.
      + destruct I as [->|I]; [left; reflexivity|right; right; apply Fr_in, I].
      + destruct I as [->|I]; [right; left; exact F|right; right; apply (Fr_step _ y); assumption].
    - intros [->|[H|H]]; [apply Fr_in; left; reflexivity|apply (Fr_step _ k); [left; reflexivity|exact H]|].
      inversion H as [? ? I|? y ? I F]; subst; [apply Fr_in; right; exact I|apply (Fr_step _ y); [right; exact I|exact F]].
  Qed.
  Lemma all_ok strv : (forall k, In k strv -> exists l, ans (Some k) l /\ (forall x, In x l <-> from (next k) x)) ->
    forall acc, acc <> [] -> exists n l, (forall fuel, n <= fuel -> all_loop (get fuel) strv acc = Some (Ok (0%Z, Some l)))
      /\ l <> [] /\ (forall x, In x l <-> In x acc \/ exists k, In k strv /\ from (next k) x).
  Proof.
    induction strv as [|k strv IH]; intros H acc Na.
    - exists 0, acc. split; [reflexivity|]. split; [exact Na|]. intros x. split; [auto|intros [|(k & [] & _)]; assumption].
    - destruct (H k (or_introl eq_refl)) as (l1 & (n1 & E1) & H1).
      destruct (IH (fun k Hk => H k (or_intror Hk)) (acc ++ l1)) as (n2 & l2 & E2 & N2 & H2); [destruct acc; [contradiction|discriminate]|].
      exists (max n1 n2), l2. split; [|split; [exact N2|]].
      + intros fuel L. cbn [all_loop]. rewrite E1 by (clear - L; lia). cbn [Z.ltb Z.compare]. specialize (E2 fuel ltac:(clear - L; lia)).
        destruct l1 as [|y l1]; cbn [opt_of]; [rewrite app_nil_r in E2; exact E2|].
        unfold strv_add_strv. destruct acc; [contradiction|]. exact E2.
      + intros x. rewrite H2, in_app_iff, H1. split.
        * intros [[I|F]|(y & I & F)]; [left; exact I|right; exists k; split; [left; reflexivity|exact F]|right; exists y; split; [right; exact I|exact F]].
        * intros [I|(y & [<-|I] & F)]; [left; left; exact I|left; right; exact F|right; exists y; split; [exact I|exact F]].
  Qed.
  Lemma all_key : (m = ANC \/ m = DESC) -> forall key l, get_dev_imm_deps d owner junk a m key = Ok (0%Z, opt_of l) ->
    (forall k, In k l -> exists l', ans (Some k) l' /\ (forall x, In x l' <-> from (next k) x)) ->
    exists l', ans key l' /\ (forall x, In x l' <-> from l x).
  Proof.
    intros M key l E H. destruct l as [|k l].
    - exists []. split; [|intros x; split; [intros []|intros F; exact (from_nil x F)]]. exists 1. intros [|fuel] L; [lia|].
      cbn [dev_stack_get]. rewrite E. destruct M as [-> | ->]; reflexivity.
    - destruct (all_ok (k :: l) H (k :: l)) as (n & l' & E' & N' & H'); [discriminate|]. exists l'. split.
      + exists (S n). intros [|fuel] L; [lia|]. cbn [dev_stack_get]. rewrite E. cbn [Z.ltb Z.compare opt_of].
        specialize (E' fuel ltac:(lia)). destruct l' as [|y l']; [contradiction|]. destruct M as [-> | ->]; exact E'.
      + intros x. rewrite H'. split.
        * intros [I|(y & I & F)]; [apply Fr_in, I|apply (Fr_step _ y); assumption].
        * intros F; inversion F as [? ? I|? y ? I F']; subst; [left; exact I|right; exists y; split; assumption].
  Qed.
  Lemma all_engine : (m = ANC \/ m = DESC) -> forall k, Acc (fun x y => In x (next y)) k -> K k -> exists l, ans (Some k) l /\ (forall x, In x l <-> from (next k) x).
  Proof.
    intros M k A. induction A as [k _ IH]. intros Hk. apply (all_key M (Some k) (next k) (deps k Hk)).
    intros y Hy. apply IH; [exact Hy|exact (closed k y Hk Hy)].
  Qed.

  (* the last ones *)
  Lemma end_ok strv : (forall k, In k strv -> exists l, ans (Some k) l /\ (l = [] <-> next k = []) /\ (forall x, In x l <-> from (next k) x /\ next x = [])) ->
    forall acc, (strv <> [] \/ acc <> []) -> exists n l, (forall fuel, n <= fuel -> end_loop (get fuel) strv (opt_of acc) = Some (Ok (0%Z, Some l)))
      /\ l <> [] /\ (forall x, In x l <-> In x acc \/ exists k, In k strv /\ (x = k \/ from (next k) x) /\ next x = []).
  Proof.
    induction strv as [|k strv IH]; intros H acc Na.
    - destruct Na as [Na|Na]; [contradiction|]. exists 0, acc. destruct acc; [contradiction|]. split; [reflexivity|]. split; [discriminate|]. intros x. split; [auto|intros [|(k & [] & _)]; assumption].
    - destruct (H k (or_introl eq_refl)) as (l1 & (n1 & E1) & Z1 & H1).
      assert (Nx : exists acc1, acc1 <> [] /\ (forall fuel, n1 <= fuel -> end_loop (get fuel) (k :: strv) (opt_of acc) = end_loop (get fuel) strv (opt_of acc1))
                 /\ (forall x, In x acc1 <-> In x acc \/ (x = k \/ from (next k) x) /\ next x = [])).
      { destruct l1 as [|y l1].
        - assert (Nk : next k = []) by (apply Z1; reflexivity). exists (acc ++ [k]). split; [destruct acc; discriminate|]. split.
          + intros fuel L. cbn [end_loop]. rewrite E1 by exact L. cbn [Z.ltb Z.compare opt_of]. destruct acc; reflexivity.
          + intros x. rewrite in_app_iff. cbn [In]. rewrite Nk. split.
            * intros [I|[<-|[]]]; [left; exact I|right; split; [left; reflexivity|exact Nk]].
            * intros [I|([->|F] & _)]; [left; exact I|right; left; reflexivity|destruct (from_nil x F)].
        - assert (Nk : next k <> []) by (intros E; apply Z1 in E; discriminate). exists (acc ++ y :: l1). split; [destruct acc; discriminate|]. split.
          + intros fuel L. cbn [end_loop]. rewrite E1 by exact L. cbn [Z.ltb Z.compare opt_of]. destruct acc as [|z acc]; reflexivity.
          + intros x. rewrite in_app_iff, H1. split.
            * intros [I|(F & Nx)]; [left; exact I|right; split; [right; exact F|exact Nx]].
            * intros [I|([->|F] & Nx)]; [left; exact I|contradiction|right; split; assumption]. }
      destruct Nx as (acc1 & N1 & Es & Hs). destruct (IH (fun k Hk => H k (or_intror Hk)) acc1 (or_intror N1)) as (n2 & l2 & E2 & N2 & H2).
      exists (max n1 n2), l2. split; [intros fuel L; rewrite Es, E2 by (clear - L; lia); reflexivity|]. split; [exact N2|].
      intros x. rewrite H2, Hs. split.
      + intros [[I|F]|(y & I & F)]; [left; exact I|right; exists k; split; [left; reflexivity|exact F]|right; exists y; split; [right; exact I|exact F]].
      + intros [I|(y & [<-|I] & F)]; [left; left; exact I|left; right; exact F|right; exists y; split; [exact I|exact F]].
  Qed.
  Lemma end_key : (m = BASE \/ m = TOP) -> forall key l, get_dev_imm_deps d owner junk a m key = Ok (0%Z, opt_of l) ->
    (forall k, In k l -> exists l', ans (Some k) l' /\ (l' = [] <-> next k = []) /\ (forall x, In x l' <-> from (next k) x /\ next x = [])) ->
    exists l', ans key l' /\ (l' = [] <-> l = []) /\ (forall x, In x l' <-> from l x /\ next x = []).
  Proof.
    intros M key l E H. destruct l as [|k l].
    - exists []. split; [|split; [tauto|intros x; split; [intros []|intros (F & _); destruct (from_nil x F)]]]. exists 1. intros [|fuel] L; [lia|].
      cbn [dev_stack_get]. rewrite E. destruct M as [-> | ->]; reflexivity.
    - destruct (end_ok (k :: l) H []) as (n & l' & E' & N' & H'); [left; discriminate|]. exists l'. split; [|split].
      + exists (S n). intros [|fuel] L; [lia|]. cbn [dev_stack_get]. rewrite E. cbn [Z.ltb Z.compare opt_of].
        specialize (E' fuel ltac:(lia)). destruct l' as [|y l']; [contradiction|]. destruct M as [-> | ->]; exact E'.
      + split; [contradiction|discriminate].
      + intros x. rewrite H'. split.
        * intros [[]|(y & I & [->|F] & Nx)]; (split; [|exact Nx]); [apply Fr_in, I|apply (Fr_step _ y); assumption].
        * intros (F & Nx); inversion F as [? ? I|? y ? I F']; subst; right; [exists x|exists y]; (split; [assumption|]); (split; [|exact Nx]); [left; reflexivity|right; assumption].
  Qed.
  Lemma end_engine : (m = BASE \/ m = TOP) -> forall k, Acc (fun x y => In x (next y)) k -> K k ->
    exists l, ans (Some k) l /\ (l = [] <-> next k = []) /\ (forall x, In x l <-> from (next k) x /\ next x = []).
  Proof.
    intros M k A. induction A as [k _ IH]. intros Hk. apply (end_key M (Some k) (next k) (deps k Hk)).
    intros y Hy. apply IH; [exact Hy|exact (closed k y Hk Hy)].
  Qed.
End Engine.
Lemma from_trans next l y x : from next l y -> In x (next y) -> from next l x.
Proof. intros F I. induction F as [l y H|l z y H F IH]; [apply (Fr_step _ _ y); [exact H|apply Fr_in, I]|apply (Fr_step _ _ z); [exact H|apply IH, I]]. Qed.
Lemma acc_finite next L : (forall k x, In k L -> In x (next k) -> In x L) -> (forall k, In k L -> ~ from next (next k) k) ->
  forall k, In k L -> Acc (fun x y => In x (next y)) k.
Proof.
  intros C Nc. assert (G : forall n p k, In k L -> NoDup p -> incl p L -> (forall y, In y p -> from next (next y) k) -> length L - length p <= n ->
    Acc (fun x y => In x (next y)) k).
  { induction n as [|n IH]; intros p k Ik Np Ip Fp Ln.
    - exfalso. assert (Nk : ~ In k p) by (intros I; exact (Nc k Ik (Fp k I))).
      assert (H : length (k :: p) <= length L) by (apply NoDup_incl_length; [constructor; assumption|intros y [<-|I]; [exact Ik|apply Ip, I]]).
      cbn [length] in H. lia.
    - assert (Nk : ~ In k p) by (intros I; exact (Nc k Ik (Fp k I))).
      constructor. intros x Hx. apply (IH (k :: p)).
      + exact (C k x Ik Hx).
      + constructor; assumption.
      + intros y [<-|I]; [exact Ik|apply Ip, I].
      + intros y [<-|I]; [apply Fr_in, Hx|exact (from_trans _ _ _ _ (Fp y I) Hx)].
      + cbn [length]. clear - Ln. lia. }
  intros k Ik. apply (G (length L) [] k Ik); [constructor|intros y []|intros y []|lia].
Qed.

Definition next_down (d : db) (k : bytes) : list bytes :=
  match members d (members_of k) with [x] => members d (members_of x) | _ => [] end.
Definition next_up (d : db) (k : bytes) : list bytes :=
  match get_key_strv (members d (in_of k)) dseq_filter with Ok [x] => members d (in_of x) | _ => [] end.
Lemma next_down_dev d devs u q : devices d devs -> In (u, q) devs -> next_down d (dseq_item q) = members d (members_of (dev_item u)).
Proof. intros D I. destruct (D u q I) as (_ & _ & (r & R & E) & _). unfold next_down. unfold members at 1. rewrite R, E. reflexivity. Qed.
Lemma next_up_dev d devs u q : devices d devs -> In (u, q) devs -> next_up d (dev_item u) = members d (in_of (dseq_item q)).
Proof.
  intros D I. destruct (D u q I) as (_ & Hq & _ & (r & a & b & R & E & F) & _). unfold next_up. unfold members at 1. rewrite R, E.
  rewrite filter_one by (try exact F; apply Hq). reflexivity.
Qed.
Lemma dseq_not_other q : no_colon q -> ~ other_item (dseq_item q).
Proof.
  intros N O. destruct (other_parts _ O) as (l & P & A). apply A. pose proof (decompose_unique _ _ P) as E1. rewrite (decompose_unique _ _ (dseq_parts q N)) in E1.
  subst l. apply accepts_dseq.
Qed.
Lemma one_number d devs u q q' : devices d devs -> In (u, q) devs -> In (u, q') devs -> q = q'.
Proof.
  intros D I I'. destruct (D u q I) as (_ & Hq & _ & (r & a & b & R & E & F) & _). destruct (D u q' I') as (_ & Hq' & _ & (r' & a' & b' & R' & E' & F') & _).
  rewrite R in R'. injection R' as <-. rewrite E in E'.
  assert (In (dseq_item q) (a' ++ dseq_item q' :: b')) by (rewrite <- E'; apply in_or_app; right; left; reflexivity).
  rewrite in_app_iff in H. cbn [In] in H. rewrite Forall_forall in F'.
  assert (O : In (dseq_item q) (a' ++ b') -> False) by (intros X; exact (dseq_not_other q (proj1 Hq) (F' _ X))). rewrite in_app_iff in O.
  destruct H as [H|[H|H]]; [tauto| |tauto]. symmetry. apply dseq_inj; [apply Hq'|apply Hq|exact H].
Qed.
Lemma one_device d devs u u' q : devices d devs -> In (u, q) devs -> In (u', q) devs -> u = u'.
Proof.
  intros D I I'. destruct (D u q I) as (Hu & _ & (r & R & E) & _). destruct (D u' q I') as (Hu' & _ & (r' & R' & E') & _).
  rewrite R in R'. injection R' as <-. rewrite E in E'. apply dev_inj; [apply Hu|apply Hu'|]. assert (X : hd [] [dev_item u] = hd [] [dev_item u']) by (rewrite E'; reflexivity). exact X.
Qed.
Lemma down_from d devs u q x : devices d devs -> In (u, q) devs ->
  (from (next_down d) (members d (members_of (dev_item u))) x <-> exists v w, In (v, w) devs /\ x = dseq_item w /\ above d devs u v).
Proof.
  intros D I. split.
  - intros F. remember (members d (members_of (dev_item u))) as l eqn:El. revert u q I El. induction F as [l x Hx|l y x Hy F IH]; intros u q I ->.
    + destruct (D u q I) as (_ & _ & _ & _ & _ & _ & Lo & _). destruct (Lo x Hx) as (v & w & Iw & ->). exists v, w. split; [exact Iw|]. split; [reflexivity|].
      apply Ab_one. exists w. split; assumption.
    + destruct (D u q I) as (_ & _ & _ & _ & _ & _ & Lo & _). destruct (Lo y Hy) as (v & w & Iw & ->).
      destruct (IH v w Iw (next_down_dev d devs v w D Iw)) as (v' & w' & I' & -> & A). exists v', w'. split; [exact I'|]. split; [reflexivity|].
      apply (Ab_more _ _ u v v'); [exists w; split; assumption|exact A].
  - intros (v & w & Iw & -> & A). revert q I. induction A as [u v (w' & Iw' & H)|u t v (w' & Iw' & H) A IH]; intros q I.
    + rewrite (one_number d devs v w w' D Iw Iw'). apply Fr_in, H.
    + apply (Fr_step _ _ (dseq_item w')); [exact H|]. rewrite (next_down_dev d devs t w' D Iw'). exact (IH Iw w' Iw').
Qed.
Lemma above_right d devs a b c : above d devs a b -> on_top d devs b c -> above d devs a c.
Proof. intros A H. induction A as [a b O|a t b O A IH]; apply (Ab_more _ _ a _ c O); [apply Ab_one, H|apply IH, H]. Qed.
Lemma above_in d devs a b q : devices d devs -> In (a, q) devs -> above d devs a b -> exists w, In (b, w) devs.
Proof. intros _ _ A. induction A as [a b (w & I & _)|a t b O A IH]; [exists w; exact I|exact IH]. Qed.
Lemma up_from d devs u q x : devices d devs -> In (u, q) devs ->
  (from (next_up d) (members d (in_of (dseq_item q))) x <-> exists v w, In (v, w) devs /\ x = dev_item v /\ above d devs v u).
Proof.
  intros D I.
  assert (Edge : forall u q y, In (u, q) devs -> (In y (members d (in_of (dseq_item q))) <-> exists v w, In (v, w) devs /\ y = dev_item v /\ on_top d devs v u)).
  { clear u q I x. intros u q y I. split.
    - intros H. destruct (D u q I) as (_ & _ & _ & _ & _ & _ & _ & Up & _). destruct (Up y H) as (v & w & Iw & ->). exists v, w. split; [exact Iw|]. split; [reflexivity|].
      exists q. split; [exact I|]. destruct (D v w Iw) as (_ & _ & _ & _ & _ & _ & _ & _ & Sy). apply (Sy u q I), H.
    - intros (v & w & Iw & -> & w' & Iw' & H). rewrite (one_number d devs u q w' D I Iw'). destruct (D v w Iw) as (_ & _ & _ & _ & _ & _ & _ & _ & Sy). apply (Sy u w' Iw'), H. }
  split.
  - intros F. remember (members d (in_of (dseq_item q))) as l eqn:El. revert u q I El. induction F as [l x Hx|l y x Hy F IH]; intros u q I ->.
    + destruct (proj1 (Edge u q x I) Hx) as (v & w & Iw & -> & O). exists v, w. split; [exact Iw|]. split; [reflexivity|apply Ab_one, O].
    + destruct (proj1 (Edge u q y I) Hy) as (v & w & Iw & -> & O). destruct (IH v w Iw (next_up_dev d devs v w D Iw)) as (v' & w' & I' & -> & A).
      exists v', w'. split; [exact I'|]. split; [reflexivity|]. exact (above_right _ _ _ _ _ A O).
  - intros (v & w & Iw & -> & A). revert w Iw. induction A as [v u O|v t u O A IH]; intros w Iw.
    + apply Fr_in, (Edge u q _ I). exists v, w. split; [exact Iw|]. split; [reflexivity|exact O].
    + destruct O as (w' & Iw' & O). specialize (IH I w' Iw'). apply (from_trans _ _ (dev_item t)); [exact IH|].
      rewrite (next_up_dev d devs t w' D Iw'). apply (Edge t w' _ Iw'). exists v, w. split; [exact Iw|]. split; [reflexivity|exists w'; split; assumption].
Qed.
Lemma ans_answers d owner junk a m key l : ans d owner junk a m key l -> answers d owner junk a m key l.
Proof. intros (n & H). exists n. intros fuel L. rewrite (H fuel L). destruct l; reflexivity. Qed.

Section Queries.
  Variables (d : db) (devs : list (bytes * bytes)) (owner junk : bytes) (a : asker).
  Hypothesis D : devices d devs.
  Hypothesis Lj : length junk = 37.
  Definition Kd (k : bytes) : Prop := exists v w, In (v, w) devs /\ k = dseq_item w.
  Definition Ku (k : bytes) : Prop := exists v w, In (v, w) devs /\ k = dev_item v.
  Lemma deps_d m : downwards m = true -> forall k, Kd k -> get_dev_imm_deps d owner junk a m (Some k) = Ok (0%Z, opt_of (next_down d k)).
  Proof.
    intros M k (v & w & I & ->). rewrite (next_down_dev d devs v w D I). apply (imm_down d devs owner junk a m _ v w D Lj M I). right. reflexivity.
  Qed.
  Lemma deps_u m : downwards m = false -> forall k, Ku k -> get_dev_imm_deps d owner junk a m (Some k) = Ok (0%Z, opt_of (next_up d k)).
  Proof.
    intros M k (v & w & I & ->). rewrite (next_up_dev d devs v w D I). apply (imm_up d devs owner junk a m _ v w D Lj M I). right. reflexivity.
  Qed.
  Lemma closed_d k x : Kd k -> In x (next_down d k) -> Kd x.
  Proof. intros (v & w & I & ->) H. rewrite (next_down_dev d devs v w D I) in H. destruct (D v w I) as (_ & _ & _ & _ & _ & _ & Lo & _). exact (Lo x H). Qed.
  Lemma closed_u k x : Ku k -> In x (next_up d k) -> Ku x.
  Proof. intros (v & w & I & ->) H. rewrite (next_up_dev d devs v w D I) in H. destruct (D v w I) as (_ & _ & _ & _ & _ & _ & _ & Up & _). exact (Up x H). Qed.
  Hypothesis Nc : no_cycle d devs.
  Lemma acc_d k : Kd k -> Acc (fun x y => In x (next_down d y)) k.
  Proof.
    intros Hk. assert (E : forall k, Kd k <-> In k (map (fun p => dseq_item (snd p)) devs)).
    { intros k'. rewrite in_map_iff. split; [intros (v & w & I & ->); exists (v, w); split; [reflexivity|exact I]|intros ((v, w) & <- & I); exists v, w; split; [exact I|reflexivity]]. }
    apply (acc_finite _ (map (fun p => dseq_item (snd p)) devs)); [intros y x Hy Hx; apply E; apply (closed_d y); [apply E, Hy|exact Hx]| |apply E, Hk].
    intros y Hy F. apply E in Hy as (v & w & I & ->). rewrite (next_down_dev d devs v w D I) in F. apply (down_from d devs v w _ D I) in F as (v' & w' & I' & Ee & A).
    apply dseq_inj in Ee; [|apply (D v w I)|apply (D v' w' I')]. subst w'. rewrite (one_device d devs v' v w D I' I) in A. exact (Nc v w I A).
  Qed.
  Lemma acc_u k : Ku k -> Acc (fun x y => In x (next_up d y)) k.
  Proof.
    intros Hk. assert (E : forall k, Ku k <-> In k (map (fun p => dev_item (fst p)) devs)).
    { intros k'. rewrite in_map_iff. split; [intros (v & w & I & ->); exists (v, w); split; [reflexivity|exact I]|intros ((v, w) & <- & I); exists v, w; split; [exact I|reflexivity]]. }
    apply (acc_finite _ (map (fun p => dev_item (fst p)) devs)); [intros y x Hy Hx; apply E; apply (closed_u y); [apply E, Hy|exact Hx]| |apply E, Hk].
    intros y Hy F. apply E in Hy as (v & w & I & ->). rewrite (next_up_dev d devs v w D I) in F. apply (up_from d devs v w _ D I) in F as (v' & w' & I' & Ee & A).
    apply dev_inj in Ee; [|apply (D v w I)|apply (D v' w' I')]. subst v'. exact (Nc v w I A).
  Qed.
  Variables (u q : bytes) (key : option bytes).
  Hypothesis I : In (u, q) devs.
  Lemma imm_anc : asks_down a key u q -> exists l, answers d owner junk a IMM_ANC key l /\ (forall x, In x l <-> exists v w, In (v, w) devs /\ x = dseq_item w /\ on_top d devs u v).
  Proof.
    intros A. exists (members d (members_of (dev_item u))). split.
    - exists 1. intros [|fuel] L; [lia|]. cbn [dev_stack_get]. rewrite (imm_down d devs owner junk a IMM_ANC key u q D Lj eq_refl I A). reflexivity.
    - intros x. split.
      + intros H. destruct (D u q I) as (_ & _ & _ & _ & _ & _ & Lo & _). destruct (Lo x H) as (v & w & Iw & ->). exists v, w. split; [exact Iw|]. split; [reflexivity|exists w; split; assumption].
      + intros (v & w & Iw & -> & w' & Iw' & H). rewrite (one_number d devs v w w' D Iw Iw'). exact H.
  Qed.
  Lemma imm_desc : asks_up a key u q -> exists l, answers d owner junk a IMM_DESC key l /\ (forall x, In x l <-> exists v w, In (v, w) devs /\ x = dev_item v /\ on_top d devs v u).
  Proof.
    intros A. exists (members d (in_of (dseq_item q))). split.
    - exists 1. intros [|fuel] L; [lia|]. cbn [dev_stack_get]. rewrite (imm_up d devs owner junk a IMM_DESC key u q D Lj eq_refl I A). reflexivity.
    - intros x. split.
      + intros H. destruct (D u q I) as (_ & _ & _ & _ & _ & _ & _ & Up & _). destruct (Up x H) as (v & w & Iw & ->). exists v, w. split; [exact Iw|]. split; [reflexivity|].
        exists q. split; [exact I|]. destruct (D v w Iw) as (_ & _ & _ & _ & _ & _ & _ & _ & Sy). apply (Sy u q I), H.
      + intros (v & w & Iw & -> & w' & Iw' & H). rewrite (one_number d devs u q w' D I Iw'). destruct (D v w Iw) as (_ & _ & _ & _ & _ & _ & _ & _ & Sy). apply (Sy u w' Iw'), H.
  Qed.
  Lemma all_anc : asks_down a key u q -> exists l, answers d owner junk a ANC key l /\ (forall x, In x l <-> exists v w, In (v, w) devs /\ x = dseq_item w /\ above d devs u v).
  Proof.
    intros A. destruct (all_key d owner junk a ANC (next_down d) Kd (deps_d ANC eq_refl) closed_d (or_introl eq_refl) key (members d (members_of (dev_item u)))) as (l & E & H).
    - exact (imm_down d devs owner junk a ANC key u q D Lj eq_refl I A).
    - intros k Hk. apply (all_engine d owner junk a ANC (next_down d) Kd (deps_d ANC eq_refl) closed_d (or_introl eq_refl)).
      + apply acc_d. destruct (D u q I) as (_ & _ & _ & _ & _ & _ & Lo & _). exact (Lo k Hk).
      + destruct (D u q I) as (_ & _ & _ & _ & _ & _ & Lo & _). exact (Lo k Hk).
    - exists l. split; [apply ans_answers, E|]. intros x. rewrite H. apply (down_from d devs u q x D I).
  Qed.
  Lemma all_desc : asks_up a key u q -> exists l, answers d owner junk a DESC key l /\ (forall x, In x l <-> exists v w, In (v, w) devs /\ x = dev_item v /\ above d devs v u).
  Proof.
    intros A. destruct (all_key d owner junk a DESC (next_up d) Ku (deps_u DESC eq_refl) closed_u (or_intror eq_refl) key (members d (in_of (dseq_item q)))) as (l & E & H).
    - exact (imm_up d devs owner junk a DESC key u q D Lj eq_refl I A).
    - intros k Hk. apply (all_engine d owner junk a DESC (next_up d) Ku (deps_u DESC eq_refl) closed_u (or_intror eq_refl)).
      + apply acc_u. destruct (D u q I) as (_ & _ & _ & _ & _ & _ & _ & Up & _). exact (Up k Hk).
      + destruct (D u q I) as (_ & _ & _ & _ & _ & _ & _ & Up & _). exact (Up k Hk).
    - exists l. split; [apply ans_answers, E|]. intros x. rewrite H. apply (up_from d devs u q x D I).
  Qed.
  Lemma no_lower v w : In (v, w) devs -> (next_down d (dseq_item w) = [] <-> forall t, ~ on_top d devs v t).
  Proof.
    intros Iv. rewrite (next_down_dev d devs v w D Iv). split.
    - intros E t (w' & _ & H). rewrite E in H. destruct H.
    - intros H. destruct (members d (members_of (dev_item v))) as [|x l] eqn:E; [reflexivity|]. exfalso.
      destruct (D v w Iv) as (_ & _ & _ & _ & _ & _ & Lo & _). destruct (Lo x) as (t & w' & It & ->); [rewrite E; left; reflexivity|].
      apply (H t). exists w'. split; [exact It|]. rewrite E. left. reflexivity.
  Qed.
  Lemma no_upper v w : In (v, w) devs -> (next_up d (dev_item v) = [] <-> forall t y, In (t, y) devs -> ~ on_top d devs t v).
  Proof.
    intros Iv. rewrite (next_up_dev d devs v w D Iv). split.
    - intros E t y It (w' & Iw' & H). rewrite <- (one_number d devs v w w' D Iv Iw') in H. destruct (D t y It) as (_ & _ & _ & _ & _ & _ & _ & _ & Sy).
      apply (Sy v w Iv) in H. rewrite E in H. destruct H.
    - intros H. destruct (members d (in_of (dseq_item w))) as [|x l] eqn:E; [reflexivity|]. exfalso.
      destruct (D v w Iv) as (_ & _ & _ & _ & _ & _ & _ & Up & _). destruct (Up x) as (t & y & It & ->); [rewrite E; left; reflexivity|].
      apply (H t y It). exists w. split; [exact Iv|]. destruct (D t y It) as (_ & _ & _ & _ & _ & _ & _ & _ & Sy). apply (Sy v w Iv). rewrite E. left. reflexivity.
  Qed.
  Lemma all_base : asks_down a key u q -> exists l, answers d owner junk a BASE key l
    /\ (forall x, In x l <-> exists v w, In (v, w) devs /\ x = dseq_item w /\ above d devs u v /\ forall t, ~ on_top d devs v t).
  Proof.
    intros A. destruct (end_key d owner junk a BASE (next_down d) Kd (deps_d BASE eq_refl) closed_d (or_introl eq_refl) key (members d (members_of (dev_item u)))) as (l & E & _ & H).
    - exact (imm_down d devs owner junk a BASE key u q D Lj eq_refl I A).
    - intros k Hk. apply (end_engine d owner junk a BASE (next_down d) Kd (deps_d BASE eq_refl) closed_d (or_introl eq_refl)).
      + apply acc_d. destruct (D u q I) as (_ & _ & _ & _ & _ & _ & Lo & _). exact (Lo k Hk).
      + destruct (D u q I) as (_ & _ & _ & _ & _ & _ & Lo & _). exact (Lo k Hk).
    - exists l. split; [apply ans_answers, E|]. intros x. rewrite H, (down_from d devs u q x D I). split.
      + intros ((v & w & Iw & -> & Ab) & N). exists v, w. split; [exact Iw|]. split; [reflexivity|]. split; [exact Ab|]. apply (no_lower v w Iw), N.
      + intros (v & w & Iw & -> & Ab & N). split; [exists v, w; split; [exact Iw|split; [reflexivity|exact Ab]]|apply (no_lower v w Iw), N].
  Qed.
  Lemma all_top : asks_up a key u q -> exists l, answers d owner junk a TOP key l
    /\ (forall x, In x l <-> exists v w, In (v, w) devs /\ x = dev_item v /\ above d devs v u /\ forall t y, In (t, y) devs -> ~ on_top d devs t v).
  Proof.
    intros A. destruct (end_key d owner junk a TOP (next_up d) Ku (deps_u TOP eq_refl) closed_u (or_intror eq_refl) key (members d (in_of (dseq_item q)))) as (l & E & _ & H).
    - exact (imm_up d devs owner junk a TOP key u q D Lj eq_refl I A).
    - intros k Hk. apply (end_engine d owner junk a TOP (next_up d) Ku (deps_u TOP eq_refl) closed_u (or_intror eq_refl)).
      + apply acc_u. destruct (D u q I) as (_ & _ & _ & _ & _ & _ & _ & Up & _). exact (Up k Hk).
      + destruct (D u q I) as (_ & _ & _ & _ & _ & _ & _ & Up & _). exact (Up k Hk).
    - exists l. split; [apply ans_answers, E|]. intros x. rewrite H, (up_from d devs u q x D I). split.
      + intros ((v & w & Iw & -> & Ab) & N). exists v, w. split; [exact Iw|]. split; [reflexivity|]. split; [exact Ab|]. apply (no_upper v w Iw), N.
      + intros (v & w & Iw & -> & Ab & N). split; [exists v, w; split; [exact Iw|split; [reflexivity|exact Ab]]|apply (no_upper v w Iw), N].
  Qed.
End Queries.

(* alias lookup *)
Lemma dev_length v : length (dev_item v) = length v + 7.
Proof. unfold dev_item. rewrite !app_length. cbn. lia. Qed.
Lemma place_app a b : place (a ++ b) = place a + place b.
Proof. unfold place. rewrite map_app, list_sum_app. reflexivity. Qed.
Lemma put_shape a o x : o + length x <= length a ->
  exists m, put_bytes a o x = Ok m /\ length m = length a /\ firstn o m = firstn o a /\ firstn (length x) (skipn o m) = x.
Proof.
  intros E. unfold put_bytes. rewrite (proj2 (Nat.leb_le _ _) E). eexists. split; [reflexivity|].
  assert (Lf : length (firstn o a) = o) by (rewrite firstn_length; clear - E; lia).
  split; [rewrite !app_length, Lf, skipn_length; clear - E; lia|]. split.
  - rewrite firstn_app, Lf, Nat.sub_diag, firstn_O, app_nil_r. rewrite firstn_all2 by (rewrite Lf; lia). reflexivity.
  - rewrite skipn_app, Lf, Nat.sub_diag. rewrite skipn_all2 by (rewrite Lf; lia). cbn [app skipn]. rewrite firstn_app, Nat.sub_diag, firstn_O, app_nil_r. apply firstn_all.
Qed.
Lemma firstn_skipn_swap {A} (k p : nat) (l : list A) : firstn k (skipn p l) = skipn p (firstn (p + k) l).
Proof. revert l. induction p as [|p IH]; intros l; [reflexivity|]. destruct l as [|x l]; [cbn; apply firstn_nil|]. cbn [skipn Nat.add firstn]. apply IH. Qed.
Lemma firstn_less {A} (a b : nat) (l m : list A) : a <= b -> firstn b l = firstn b m -> firstn a l = firstn a m.
Proof. intros L E. rewrite <- (Nat.min_l a b L). rewrite <- !firstn_firstn, E. reflexivity. Qed.
Lemma alias_loop_ok (buf0 : bytes) : (N.of_nat (length buf0) < 2147483648)%N -> forall ids mem p, Forall (fun v => no_colon v /\ ~ In NUL v) ids -> length mem = length buf0 ->
  p + place (removelast ids) <= length mem ->
  exists code mem', alias_loop (map dev_item ids) mem p (N.of_nat (length mem - p)) = Ok (code, mem') /\ length mem' = length mem /\ firstn p mem' = firstn p mem
    /\ (code = 0%Z /\ (forall a v b, ids = a ++ v :: b -> p + place a + length v < length mem /\ firstn (length v + 1) (skipn (p + place a) mem') = v ++ [NUL])
        \/ code = (- ENOBUFS)%Z /\ exists a v b, ids = a ++ v :: b /\ length mem <= p + place a + length v).
Proof.
  intros Lb. induction ids as [|v ids IH]; intros mem p F Lm Lp.
  - exists 0%Z, mem. split; [reflexivity|]. split; [reflexivity|]. split; [reflexivity|]. left. split; [reflexivity|]. intros [|? ?] ? ? E; discriminate.
  - apply Forall_cons_iff in F as ((Nv & Zv) & F). cbn [map alias_loop]. unfold copy_ns_part_from_key. rewrite (dseq_ns v Nv). unfold copy_part.
    destruct (Nat.leb_spec (length mem) (p + length v)) as [Out|In'].
    + assert (R : ((INT_MAX <? N.of_nat (length v))%N = true \/ ((N.of_nat (length mem - p) =? 0)%N || (N.of_nat (length mem - p) - 1 <? N.of_nat (length v))%N = true))).
      { right. destruct (N.eqb_spec (N.of_nat (length mem - p)) 0); [reflexivity|]. apply N.ltb_lt. clear - Out n. lia. }
      exists (- ENOBUFS)%Z, mem. split; [destruct (INT_MAX <? N.of_nat (length v))%N; [reflexivity|destruct R as [R|R]; [discriminate|rewrite R; reflexivity]]|].
      split; [reflexivity|]. split; [reflexivity|]. right. split; [reflexivity|]. exists [], v, ids. split; [reflexivity|]. cbn. clear - Out. lia.
    + replace (INT_MAX <? N.of_nat (length v))%N with false by (symmetry; apply N.ltb_ge; unfold INT_MAX; rewrite Lm in In'; clear - In' Lb; lia).
      replace ((N.of_nat (length mem - p) =? 0)%N || (N.of_nat (length mem - p) - 1 <? N.of_nat (length v))%N) with false
        by (symmetry; apply orb_false_iff; split; [apply N.eqb_neq|apply N.ltb_ge]; clear - In'; lia).
      destruct (put_shape mem p (v ++ [NUL])) as (m1 & E1 & L1 & P1 & V1); [rewrite app_length; cbn [length]; clear - In'; lia|].
      rewrite E1. cbn [obind]. rewrite app_length in V1. cbn [length] in V1.
      destruct ids as [|w ids].
      * exists 0%Z, m1. split; [reflexivity|]. split; [exact L1|]. split; [exact P1|]. left. split; [reflexivity|].
        intros [|? [|? ?]] x b E; try discriminate. injection E as <- <-. cbn [place map list_sum fold_right]. rewrite Nat.add_0_r. split; [exact In'|exact V1].
      * assert (Pr : place (removelast (v :: w :: ids)) = length v + 8 + place (removelast (w :: ids))) by reflexivity. rewrite Pr in Lp.
        destruct (IH m1 (p + (length v + 8)) F) as (code & m2 & E2 & L2 & P2 & H2); [rewrite L1; exact Lm|rewrite L1; clear - Lp; lia|].
        exists code, m2. split; [|split; [rewrite L2; exact L1|split]].
        -- rewrite dev_length. replace (length v + 7 + 1) with (length v + 8) by lia.
           replace (wrap64 (N.of_nat (length mem - p) + 2 ^ 64 - N.of_nat (length v + 8))) with (N.of_nat (length m1 - (p + (length v + 8)))); [exact E2|].
           rewrite L1. unfold wrap64. replace (N.of_nat (length mem - p) + 2 ^ 64 - N.of_nat (length v + 8))%N with (N.of_nat (length mem - (p + (length v + 8))) + 1 * 2 ^ 64)%N by (clear - Lp; lia).
           rewrite N.mod_add by discriminate. rewrite N.mod_small; [reflexivity|]. rewrite Lm. clear - Lb. lia.
        -- rewrite (firstn_less p (p + (length v + 8)) m2 m1 ltac:(lia) P2). exact P1.
        -- destruct H2 as [(C & H2)|(C & a & x & b & E & H2)]; [left; split; [exact C|]|right; split; [exact C|]].
           ++ intros [|y a] x b E.
              ** injection E as <- <-. cbn [place map list_sum fold_right]. rewrite Nat.add_0_r. split; [exact In'|].
                 rewrite firstn_skipn_swap, (firstn_less (p + (length v + 1)) (p + (length v + 8)) m2 m1 ltac:(lia) P2), <- firstn_skipn_swap. exact V1.
              ** injection E as <- E. destruct (H2 a x b E) as (B1 & B2). change (place (v :: a)) with (length v + 8 + place a). rewrite L1 in B1.
                 rewrite Nat.add_assoc. split; [exact B1|exact B2].
           ++ exists (v :: a), x, b. split; [rewrite E; reflexivity|]. change (place (v :: a)) with (length v + 8 + place a). rewrite L1 in H2. clear - H2. lia.
Qed.
Lemma read_part v m : ~ In NUL v -> firstn (length v + 1) m = v ++ [NUL] -> string_at m = Ok v.
Proof.
  intros N E. rewrite <- (firstn_skipn (length v + 1) m), E, <- app_assoc. apply (string_ok v). exact N.
Qed.
Lemma alias_lookup_lemma : forall d key buf r ids, recs d (canonicalize_key key) = Some r -> r_data r = map dev_item ids ->
  Forall (fun v => no_colon v /\ ~ In NUL v) ids -> (N.of_nat (length buf) < 2147483648)%N -> place (removelast ids) <= length buf ->
  exists code mem, raw_alias_to_devid d key buf = Ok (code, mem) /\ length mem = length buf
    /\ (code = 0%Z /\ (forall a v b, ids = a ++ v :: b -> place a + length v < length buf /\ string_at (skipn (place a) mem) = Ok v)
        \/ code = (- ENOBUFS)%Z /\ exists a v b, ids = a ++ v :: b /\ length buf <= place a + length v).
Proof.
  intros d key buf r ids R E F Lb Lp. unfold raw_alias_to_devid. rewrite R, E.
  destruct (alias_loop_ok buf Lb ids buf 0 F eq_refl Lp) as (code & mem & E1 & L1 & _ & H). rewrite Nat.sub_0_r in E1. exists code, mem.
  split; [exact E1|]. split; [exact L1|]. destruct H as [(C & H)|(C & a & v & b & Ei & H)]; [left|right]; (split; [exact C|]).
  - intros a v b Ei. destruct (H a v b Ei) as (H1 & H2). split; [exact H1|]. apply read_part; [|exact H2].
    rewrite Forall_forall in F. apply (F v). rewrite Ei. apply in_or_app. right. left. reflexivity.
  - exists a, v, b. split; [exact Ei|exact H].
Qed.
Lemma alias_second_lemma : forall d key buf r v w ids, recs d (canonicalize_key key) = Some r -> r_data r = map dev_item (v :: w :: ids) ->
  no_colon v -> no_colon w -> (N.of_nat (length buf) < 2147483648)%N -> (N.of_nat (length w) < 2147483648)%N ->
  length v < length buf -> length buf < length v + 8 -> raw_alias_to_devid d key buf = UB.
Proof.
  intros d key buf r v w ids R E Nv Nw Lb Lw L1 L2. unfold raw_alias_to_devid. rewrite R, E. cbn [map alias_loop]. unfold copy_ns_part_from_key.
  rewrite (dseq_ns v Nv). unfold copy_part at 1.
  replace (INT_MAX <? N.of_nat (length v))%N with false by (symmetry; apply N.ltb_ge; unfold INT_MAX; clear - L1 Lb; lia).
  replace ((N.of_nat (length buf) =? 0)%N || (N.of_nat (length buf) - 1 <? N.of_nat (length v))%N) with false
    by (symmetry; apply orb_false_iff; split; [apply N.eqb_neq|apply N.ltb_ge]; clear - L1; lia).
  destruct (put_shape buf 0 (v ++ [NUL])) as (m1 & E1 & Lm & _ & _); [rewrite app_length; cbn [length]; clear - L1; lia|]. rewrite E1. cbn [obind].
  rewrite (dseq_ns w Nw), dev_length. set (size := wrap64 _).
  assert (Sz : (size = 2 ^ 64 - N.of_nat (length v + 8 - length buf))%N).
  { unfold size, wrap64. rewrite N.mod_small; clear - L1 L2 Lb; lia. }
  unfold copy_part. replace (INT_MAX <? N.of_nat (length w))%N with false by (symmetry; apply N.ltb_ge; unfold INT_MAX; clear - Lw; lia).
  replace ((size =? 0)%N || (size - 1 <? N.of_nat (length w))%N) with false
    by (symmetry; apply orb_false_iff; split; [apply N.eqb_neq|apply N.ltb_ge]; rewrite Sz; clear - L1 L2 Lb Lw; lia).
  unfold put_bytes. rewrite (proj2 (Nat.leb_gt _ _)); [reflexivity|]. rewrite app_length, Lm. cbn [length]. clear - L2. lia.
Qed.
Lemma alias_empty_lemma : forall d key buf r, recs d (canonicalize_key key) = Some r -> r_data r = [] -> raw_alias_to_devid d key buf = Ok (0%Z, buf).
Proof. intros d key buf r R E. unfold raw_alias_to_devid. rewrite R, E. reflexivity. Qed.
Lemma alias_missing_lemma : forall d key buf, recs d (canonicalize_key key) = None -> raw_alias_to_devid d key buf = Ok ((- ENODATA)%Z, buf).
Proof. intros d key buf R. unfold raw_alias_to_devid. rewrite R. reflexivity. Qed.
Lemma strlen_none m : ~ In NUL m -> strlen m = None.
Proof.
  induction m as [|c m IH]; intros N; [reflexivity|]. cbn [strlen]. destruct (Ascii.eqb_spec c NUL) as [->|_]; [exfalso; apply N; left; reflexivity|].
  rewrite IH; [reflexivity|intros I; apply N; right; exact I].
Qed.
Lemma plain_id_lemma : forall d owner a u old c, no_colon u -> ~ In NUL u -> length u = 36 -> length old = 36 -> c <> NUL ->
  get_dev_imm_deps d owner (old ++ [c]) a IMM_ANC (Some u) = UB.
Proof.
  intros d owner a u old c Nu Zu Lu Lo Nc. unfold get_dev_imm_deps. cbn [downwards]. unfold dev_key_to_devid.
  assert (P : has_parts u [u]).
  { split; [reflexivity|]. split; [discriminate|]. split; [cbn [length]; lia|]. intros [|[|i]] p E _; [injection E as <-; exact Nu|discriminate|discriminate]. }
  destruct (last_of u _ P) as (p & E). rewrite E. cbn [length Nat.sub Nat.eqb]. unfold strncpy.
  replace (length (old ++ [c]) - 1) with 36 by (rewrite app_length, Lo; reflexivity). rewrite Lu, Nat.sub_diag. cbn [repeat]. rewrite app_nil_r, firstn_all2 by (rewrite Lu; lia).
  assert (P1 : length u <= length (old ++ [c])) by (rewrite app_length, Lo, Lu; cbn [length]; lia). apply (put_bytes_at [] 0 u (old ++ [c]) eq_refl) in P1. cbn [app] in P1.
  rewrite P1. cbn [obind Z.ltb Z.compare].
  rewrite Lu, <- Lo, skipn_app, Nat.sub_diag, skipn_all2 by lia. cbn [app skipn]. unfold string_at.
  rewrite strlen_none; [reflexivity|]. rewrite in_app_iff. intros [I|[I|[]]]; [exact (Zu I)|exact (Nc I)].
Qed.
Lemma cycle_lemma d owner junk a k1 k2 : get_dev_imm_deps d owner junk a ANC (Some k1) = Ok (0%Z, Some [k2]) ->
  get_dev_imm_deps d owner junk a ANC (Some k2) = Ok (0%Z, Some [k1]) -> forall fuel, dev_stack_get fuel d owner junk a ANC (Some k1) = None.
Proof.
  intros E1 E2. assert (G : forall fuel, dev_stack_get fuel d owner junk a ANC (Some k1) = None /\ dev_stack_get fuel d owner junk a ANC (Some k2) = None).
  { induction fuel as [|fuel (I1 & I2)]; [split; reflexivity|]. split; cbn [dev_stack_get]; [rewrite E1|rewrite E2]; cbn [Z.ltb Z.compare all_loop]; [rewrite I2|rewrite I1]; reflexivity. }
  intros fuel. apply G.
Qed.
