From Verif Require Import Base Kvs_Model UbrRec_Model UbrKey_Model UbrKey_Spec UbrKey_Proofs UbrDb_Model UbrPerm_Spec UbrPerm_Proofs UbrDelta_Model UbrScan_Model UbrScan_Spec UbrScan_Proofs Lvm_Model Lvm_Spec Lvm_Proofs
  Dm_Model Dm_Spec Dm_Proofs UbrExec_Model UbrExec_Spec UbrExec_Proofs DmProps_Model DmProps_Spec DmProps_Proofs DmCookie_Model DmCookie_Spec.
Local Open Scope nat_scope.

(* kv_set changes the record and its archive only *)
Lemma put_ne m x v k : k <> x -> put m x v k = m k.
Proof. intros H. unfold put. destruct (key_eqb_spec k x); [contradiction|reflexivity]. Qed.
Lemma kvs_set_frame d key new arch cb d' code st k : kvs_set d key new arch cb = (d', code, st) -> k <> canonicalize_key key ->
  (forall a, arch = Some a -> k <> canonicalize_key a) -> recs d' k = recs d k.
Proof.
  unfold kvs_set. intros E H1 H2. destruct (cb _ new) as (z, ok). destruct ok; [|congruence].
  injection E as <- _ _. cbn [recs]. destruct arch as [a|]; [destruct (recs d _) as [o|]|]; rewrite ?put_ne; auto.
Qed.
Lemma kv_set_frame d u w n c v f d' r st k : kv_set d u w n c v f = Ok (d', r, st) -> k <> record_key u w n c -> k <> "~"%char :: record_key u w n c -> recs d' k = recs d k.
Proof.
  intros E N1 N2. destruct (ns_eqb n NS_UNDEFINED || bad_name c) eqn:G.
  - unfold kv_set in E. rewrite G in E. congruence.
  - rewrite (kv_set_unfold d u w n c v f (proj2 (good_bad n c) G)) in E.
    destruct (kvs_set _ _ _ _ _) as ((d1, code), st1) eqn:K.
    assert (R : recs d1 k = recs d k).
    { apply (kvs_set_frame _ _ _ _ _ _ _ _ k K); [rewrite rec_key; exact N1|].
      intros a Ha. destruct (has _ FL_AR); [|discriminate]. apply some_inj in Ha as <-. rewrite arch_key. exact N2. }
    destruct v, st1; try discriminate; injection E as <- _ _; rewrite index_recs; exact R.
Qed.
Lemma str_set_frame d u w n c v f d' r k : str_set d u w n c v f = Ok (d', r) -> k <> record_key u w n c -> k <> "~"%char :: record_key u w n c -> recs d' k = recs d k.
Proof.
  unfold str_set. intros E. destruct (kv_set _ _ _ _ _ _ _) as [((d1, z), st)|] eqn:K; [|discriminate]. cbn [obind] in E. injection E as <- _. exact (kv_set_frame _ _ _ _ _ _ _ _ _ _ _ K).
Qed.
Lemma key_cases u k : In k (cookie_keys u) -> k = cookie_var u \/ k = base_key u \/ k = flags_key u.
Proof. cbn [cookie_keys In]. intuition auto. Qed.

Lemma cookie_no_list u k : In k (cookie_keys u) -> no_list k.
Proof.
  intros H. destruct (key_cases u k H) as [-> | [-> | ->]].
  - apply (udev_no_list _ _ (B "DM_CO") (B "OKIE")); (reflexivity || discriminate).
  - apply (devmod_no_list _ _ _ (B "cookie_") (B "base")); (reflexivity || discriminate).
  - apply (devmod_no_list _ _ _ (B "cookie_f") (B "lags")); (reflexivity || discriminate).
Qed.
Lemma cookie_no_arch u k x : In k (cookie_keys u) -> k <> "~"%char :: x.
Proof. intros H. destruct (key_cases u k H) as [-> | [-> | ->]]; discriminate. Qed.
Lemma cookie_no_state u k c : In k (cookie_keys u) -> k <> state_key u c.
Proof. intros H. destruct (key_cases u k H) as [-> | [-> | ->]]; discriminate. Qed.
(* the other records the module sets *)
Definition other_name (n : kv_ns) (c : bytes) : Prop := (n = NS_UDEV /\ c <> U_COOKIE) \/ (n = NS_DEVMOD /\ c <> X_COOKIE_BASE /\ c <> X_COOKIE_FLAGS) \/ n = NS_DEVICE.
Lemma other_key u k n c : In k (cookie_keys u) -> other_name n c -> k <> record_key u MOD_DM n c.
Proof.
  intros H [(-> & N)|[(-> & N1 & N2)| ->]]; destruct (key_cases u k H) as [-> | [-> | ->]].
  - rewrite udev_is. intros E. apply Lvm_Proofs.udev_inj in E. apply N. symmetry. exact E.
  - discriminate.
  - discriminate.
  - discriminate.
  - rewrite devmod_is. intros E. apply DmProps_Proofs.devmod_inj in E. apply N1. symmetry. exact E.
  - rewrite devmod_is. intros E. apply DmProps_Proofs.devmod_inj in E. apply N2. symmetry. exact E.
  - discriminate.
  - discriminate.
  - discriminate.
Qed.
Definition same (u : ucmd) (d d' : db) : Prop := forall k, In k (cookie_keys u) -> recs d' k = recs d k.
Lemma same_refl u d : same u d d. Proof. intros k _. reflexivity. Qed.
Lemma same_trans u a b c : same u a b -> same u b c -> same u a c.
Proof. intros H1 H2 k Hk. rewrite (H2 k Hk). apply H1, Hk. Qed.
Lemma kv_same d u n c v f d' r st : kv_set d u MOD_DM n c v f = Ok (d', r, st) -> other_name n c -> same u d d'.
Proof. intros E O k Hk. exact (kv_set_frame _ _ _ _ _ _ _ _ _ _ _ E (other_key u k n c Hk O) (cookie_no_arch u k _ Hk)). Qed.
Lemma str_same d u n c v f d' r : str_set d u MOD_DM n c v f = Ok (d', r) -> other_name n c -> same u d d'.
Proof. intros E O k Hk. exact (str_set_frame _ _ _ _ _ _ _ _ _ _ E (other_key u k n c Hk O) (cookie_no_arch u k _ Hk)). Qed.
Lemma buf_same d u n c b f d' r : buf_set d u n c b f = Ok (d', r) -> other_name n c -> same u d d'.
Proof. unfold buf_set. destruct (string_at b) as [v|]; [|discriminate]. cbn [obind]. apply str_same. Qed.
Lemma alias_same d u c b d' r : buf_alias d u c b = Ok (d', r) -> same u d d'.
Proof. unfold buf_alias. destruct (string_at b) as [v|]; [|discriminate]. cbn [obind]. intros E k Hk. exact (proj1 (step_keeps _ _ _ _ E k (cookie_no_list u k Hk))). Qed.
Lemma ready_same s u w n b s' r : set_ready s u w n b = Ok (s', r) -> same u (sc_db s) (sc_db s').
Proof.
  intros E. destruct (set_ready_cases _ _ _ _ _ _ _ E) as [-> |(_ & _ & _ & _ & _ & _ & _ & _ & _ & W)]; [apply same_refl|].
  intros k Hk. apply W; [apply cookie_no_state, Hk|apply (cookie_no_arch u), Hk].
Qed.
Lemma reserved_same s u w n b s' r : set_reserved s u w n b = Ok (s', r) -> same u (sc_db s) (sc_db s').
Proof.
  intros E. destruct (set_reserved_cases _ _ _ _ _ _ _ E) as [-> |(_ & _ & _ & _ & _ & _ & _ & _ & _ & W)]; [apply same_refl|].
  intros k Hk. apply W; [apply cookie_no_state, Hk|apply (cookie_no_arch u), Hk].
Qed.

Ltac ob E := match type of E with context [obind ?x _] => let X := fresh "X" in let p := fresh "p" in destruct x as [p|] eqn:X; [cbn [obind] in E|discriminate E] end.
Ltac names := first [left; split; [reflexivity|discriminate] | right; left; split; [reflexivity|split; discriminate] | right; right; reflexivity].
Lemma props_same d u fu fn fs bu bn bs d' r : get_sysfs_props d u fu fn fs bu bn bs = Ok (d', r) -> same u d d'.
Proof.
  unfold get_sysfs_props. intros E.
  ob E. destruct p as (r1, b1). destruct (r1 <? 0)%Z; [injection E as <- _; apply same_refl|].
  ob E. destruct p as (r2, b2). destruct (r2 <? 0)%Z; [injection E as <- _; apply same_refl|].
  ob E. rename p into a. destruct (negb a); [injection E as <- _; apply same_refl|].
  ob E. destruct p as (r3, b3). destruct (r3 <? 0)%Z; [injection E as <- _; apply same_refl|].
  ob E. rename p into a0. destruct (negb a0); [injection E as <- _; apply same_refl|].
  ob E. rename p into a1. ob E. destruct p as (d1, z1).
  assert (S1 : same u d d1). { destruct a1; [exact (alias_same _ _ _ _ _ _ X5)|injection X5 as <- _; apply same_refl]. }
  destruct (z1 <? 0)%Z; [injection E as <- _; exact S1|].
  ob E. destruct p as (d2, z2). pose proof (same_trans _ _ _ _ S1 (alias_same _ _ _ _ _ _ X6)) as S2. destruct (z2 <? 0)%Z; [injection E as <- _; exact S2|].
  ob E. destruct p as (d3, z3). pose proof (same_trans _ _ _ _ S2 (buf_same _ _ _ _ _ _ _ _ X7 ltac:(names))) as S3. destruct (z3 <? 0)%Z; [injection E as <- _; exact S3|].
  ob E. destruct p as (d4, z4). pose proof (same_trans _ _ _ _ S3 (buf_same _ _ _ _ _ _ _ _ X8 ltac:(names))) as S4. destruct (z4 <? 0)%Z; [injection E as <- _; exact S4|].
  ob E. destruct p as (d5, z5). assert (S5 : same u d d5).
  { destruct a1; [exact (same_trans _ _ _ _ S4 (buf_same _ _ _ _ _ _ _ _ X9 ltac:(names)))|injection X9 as <- _; exact S4]. }
  destruct (z5 <? 0)%Z; [injection E as <- _; exact S5|].
  ob E. destruct p as (d6, z6). pose proof (same_trans _ _ _ _ S5 (buf_same _ _ _ _ _ _ _ _ X10 ltac:(names))) as S6. destruct (z6 <? 0)%Z; [injection E as <- _; exact S6|].
  ob E. destruct p as (d7, z7). pose proof (same_trans _ _ _ _ S6 (buf_same _ _ _ _ _ _ _ _ X11 ltac:(names))) as S7. destruct (z7 <? 0)%Z; injection E as <- _; exact S7.
Qed.
Lemma run_same u m p s s' r : (forall x, m = Some x -> harmless u (sm_run x p)) -> run_submod m p s = Ok (s', r) -> leaves u s s'.
Proof.
  unfold run_submod. intros H E. destruct m as [m|]; [|injection E as <- _; intros k _; reflexivity].
  ob E. destruct p0 as (s1, z). injection E as <- _. exact (H m eq_refl _ _ _ X).
Qed.
Lemma match_current_in d l m : match_current d l = Ok (Some m) -> In m l.
Proof. induction l as [|x l IH]; cbn [match_current]; [discriminate|]. intros E. ob E. destruct p; [injection E as ->; left; reflexivity|right; apply IH, E]. Qed.
Lemma match_next_in d l : forall o m, match_next d l o = Ok (Some m) -> In m l \/ o = Some m.
Proof.
  induction l as [|x l IH]; cbn [match_next]; intros o m E; [right; injection E as ->; reflexivity|]. ob E. rename p into a.
  destruct (IH _ _ E) as [I|I]; [left; right; exact I|]. destruct a; [injection I as ->; left; left; reflexivity|right; exact I].
Qed.
Lemma init_same s u l s' m r : (forall m p, In m l -> harmless u (sm_run m p)) -> submod_init s u l = Ok (s', m, r) -> leaves u s s'.
Proof.
  unfold submod_init. intros H E. ob E. destruct p as [name|].
  - destruct (key_eqb name SUB_NONE); [injection E as <- _ _; intros k _; reflexivity|].
    destruct (find _ l) as [x|] eqn:F; [|injection E as <- _ _; intros k _; reflexivity].
    ob E. destruct p as (s1, z). injection E as <- _ _. apply find_some in F as (F & _). refine (run_same _ _ _ _ _ _ _ X0). intros y Y. injection Y as <-. apply H, F.
  - ob E. rename p into m0. ob E. destruct p as (d1, z). assert (S : same u (sc_db s) d1) by (exact (str_same _ _ _ _ _ _ _ _ X1 ltac:(names))).
    destruct (z <? 0)%Z; [injection E as <- _ _; exact S|].
    ob E. destruct p as (s1, z1). injection E as <- _ _.
    assert (L : leaves u (with_db s d1) s1).
    { refine (run_same _ _ _ _ _ _ _ X2). intros y ->. apply H. exact (match_current_in _ _ _ X0). }
    intros k Hk. rewrite (L k Hk). exact (S k Hk).
Qed.
Lemma store_same u f : forall names i d d' r, ~ In U_COOKIE names -> store_flags d u f i names = Ok (d', r) -> same u d d'.
Proof.
  induction names as [|x l IH]; cbn [store_flags]; intros i d d' r N E; [injection E as <- _; apply same_refl|].
  ob E. destruct p as ((d1, z), st). assert (S : same u d d1).
  { refine (kv_same _ _ _ _ _ _ _ _ _ X _). left. split; [reflexivity|]. intros ->. apply N. left. reflexivity. }
  destruct (z <? 0)%Z; [injection E as <- _; exact S|]. refine (same_trans _ _ _ _ S (IH _ _ _ _ _ E)). intros I. apply N. right. exact I.
Qed.
Lemma one_same d u b d' r : In b [2; 3] -> set_one d u b = Ok (d', r) -> same u d d'.
Proof.
  unfold set_one. intros I E. ob E. destruct p as ((d1, z), st). injection E as <- _. refine (kv_same _ _ _ _ _ _ _ _ _ X _).
  destruct I as [<-|[<-|[]]]; left; (split; [reflexivity|]); vm_compute; discriminate.
Qed.
Lemma names_other : ~ In U_COOKIE flag_names.
Proof. intros H. vm_compute in H. decompose [or] H; try discriminate; try contradiction. Qed.
Lemma exit_same s u s' r : dm_scan_a_exit s u = Ok (s', r) -> leaves u s s'.
Proof.
  unfold dm_scan_a_exit. intros E. ob E. destruct p as (s1, ready). apply get_ready_others in X as (D & _).
  ob E. destruct p as (d1, z1). assert (S1 : same u (sc_db s) d1).
  { rewrite <- D. destruct (_ <=? _)%N; [exact (str_same _ _ _ _ _ _ _ _ X ltac:(names))|injection X as <- _; apply same_refl]. }
  destruct (z1 <? 0)%Z; [injection E as <- _; exact S1|]. ob E. destruct p as [f|]; [|injection E as <- _; exact S1].
  ob E. destruct p as (d2, z2). pose proof (same_trans _ _ _ _ S1 (store_same _ _ _ _ _ _ _ names_other X1)) as S2. destruct (z2 <? 0)%Z; [injection E as <- _; exact S2|].
  destruct (_ || _ || _)%bool.
  - ob E. destruct p as (d3, z3). pose proof (same_trans _ _ _ _ S2 (one_same _ _ 3 _ _ (or_intror (or_introl eq_refl)) X2)) as S3. destruct (z3 <? 0)%Z; [injection E as <- _; exact S3|].
    ob E. destruct p as (d4, z4). injection E as <- _. exact (same_trans _ _ _ _ S3 (one_same _ _ 2 _ _ (or_introl eq_refl) X3)).
  - destruct (_ =? _)%N; [|injection E as <- _; exact S2]. ob E. destruct p as (d3, z3). injection E as <- _. exact (same_trans _ _ _ _ S2 (one_same _ _ 2 _ _ (or_introl eq_refl) X2)).
Qed.
Lemma sub_same q p s s' r : harmless (dp_ucmd q) (dp_sub q p) -> sub_run q p s = Ok (s', r) -> leaves (dp_ucmd q) s s'.
Proof. unfold sub_run. intros H E. ob E. destruct p0 as (s1, z). injection E as <- _. exact (H _ _ _ X). Qed.
Lemma switch_same s u ready c synth a s' r : dm_switch s u ready c synth a = Ok (s', r) -> leaves u s s'.
Proof.
  assert (R : forall s1 w n b s2 z, set_ready s1 u w n b = Ok (s2, z) -> leaves u s1 s2) by (intros s1 w n b s2 z E; exact (ready_same _ _ _ _ _ _ _ E)).
  assert (F : forall s1 f s2 z, set_by_flags s1 u f = Ok (s2, z) -> leaves u s1 s2).
  { intros s1 f s2 z. unfold set_by_flags. destruct (N.testbit f BIT_OTHER); [apply R|]. destruct (N.testbit f BIT_DISK); apply R. }
  assert (I : forall z, Ok (s, z) = Ok (s', r) -> leaves u s s') by (intros z E; injection E as <- _; intros k _; reflexivity).
  unfold dm_switch. intros E.
  repeat match type of E with
  | Ok (s, _) = _ => exact (I _ E)
  | set_ready _ _ _ _ _ = _ => exact (R _ _ _ _ _ _ E)
  | set_by_flags _ _ _ = _ => exact (F _ _ _ _ E)
  | obind _ _ = _ => let X := fresh "X" in let s1 := fresh "s1" in let z := fresh "z" in ob E; match goal with Y : set_ready _ _ _ _ _ = Ok ?p |- _ => destruct p as (s1, z);
       destruct (z <? 0)%Z; [injection E as <- _; exact (R _ _ _ _ _ _ Y)|intros k Hk; rewrite (F _ _ _ _ E k Hk); exact (R _ _ _ _ _ _ Y k Hk)] end
  | match ?x with _ => _ end = _ => destruct x
  | (if ?x then _ else _) = _ => destruct x
  end.
Qed.
(* all functions of the module but those that read the cookie leave its records *)
(* the table without the semaphores *)
Definition dm_old (q : dm_par) (p : nat) : scan -> outcome (scan * Z) :=
  match p with
  | 0 => fun s => let! (s, _, r) := dm_scan_a_init s (dp_ucmd q) (dp_subs q) (dp_uuid q) (dp_name q) (dp_susp q) (dp_buuid q) (dp_bname q) (dp_bsusp q) in Ok (s, r)
  | 1 => fun s => dm_scan_pre s (dp_ucmd q) (dp_synth q) (dp_action q) (dp_sub q 1)
  | 3 => fun s => let! (s, _, r) := dm_scan_next s (dp_subs q) in Ok (s, r)
  | 4 => fun s => let! (s, _) := sub_run q 4 s in Ok (s, 0%Z)
  | 6 => fun s => dm_scan_a_exit s (dp_ucmd q)
  | 7 => dm_remove_init q
  | 11 => fun s => let! (s, r, _) := dm_action_current s (dp_ucmd q) (dp_sems q) (dp_sub q 11) in Ok (s, r)
  | 14 => fun s => Ok (s, 0%Z)
  | p => sub_run q p
  end.
Lemma fn_old q p s : dm_fn q p s = dm_old q p s.
Proof.
  unfold dm_fn. destruct p as [|[|[|[|[|[|[|[|[|[|[|[|[|[|[|p]]]]]]]]]]]]]]]; cbn [dm_step dm_old]; unfold quiet;
  match goal with |- obind (obind ?a _) _ = _ => destruct a as [?|]; [|reflexivity] | _ => idtac end; cbn [obind];
  repeat match goal with x : (_ * _)%type |- _ => destruct x end; reflexivity.
Qed.
Lemma elsewhere_lemma q p s s' r l : p <> B_ACTION_CURRENT -> dm_step q p s = Ok (s', r, l) -> l = [].
Proof.
  intros N E. destruct p as [|[|[|[|[|[|[|[|[|[|[|[|[|[|[|p]]]]]]]]]]]]]]]; cbn [dm_step] in E; unfold quiet in E; try (destruct (N eq_refl); fail);
  match type of E with obind ?a _ = _ => destruct a as [y|]; [|discriminate E] | _ => idtac end; cbn [obind] in E; repeat match type of E with context [let (_, _) := ?y in _] => destruct y end; injection E as _ _ <-; reflexivity.
Qed.
Lemma dm_harmless q p : (forall p, harmless (dp_ucmd q) (dp_sub q p)) -> (forall m p, In m (dp_subs q) -> harmless (dp_ucmd q) (sm_run m p)) -> p <> 1 -> p <> 7 -> harmless (dp_ucmd q) (dm_fn q p).
Proof.
  intros Hs Hl N1 N7 s s' r E.
  assert (Hq : forall p s s' r, sub_run q p s = Ok (s', r) -> leaves (dp_ucmd q) s s') by (intros p0 t t' z; apply sub_same, Hs).
  rewrite fn_old in E. destruct p as [|[|[|[|[|[|[|[|[|[|[|[|[|[|[|p]]]]]]]]]]]]]]]; try contradiction; cbn [dm_old] in E; try exact (Hq _ _ _ _ E).
  - unfold dm_scan_a_init in E. ob E. destruct p as ((s1, m), z). injection E as <- _. ob X. destruct p as (d1, z1). pose proof (props_same _ _ _ _ _ _ _ _ _ _ X0) as S.
    destruct (z1 <? 0)%Z; [injection X as <- _ _; exact S|]. apply init_same in X; [|exact Hl]. intros k Hk. rewrite (X k Hk). exact (S k Hk).
  - unfold dm_scan_next in E. ob E. destruct p as ((s1, m), z). injection E as <- _. ob X. rename p into m1. ob X. destruct p as (s2, z2). injection X as <- <- _.
    refine (run_same _ _ _ _ _ _ _ X1). intros y ->. destruct (match_next_in _ _ _ _ X0) as [I|I]; [apply Hl, I|discriminate].
  - ob E. destruct p as (s1, z). injection E as <- _. exact (Hq _ _ _ _ X).
  - exact (exit_same _ _ _ _ E).
  - ob E. destruct p as ((s1, z), l). injection E as <- _. unfold dm_action_current in X. ob X. rename p into a.
    destruct (match a with Some b => udevcomplete (dp_sems q) b | None => (0%Z, []) end) as (r0, l0). destruct (r0 <? 0)%Z; [injection X as <- _ _; intros k _; reflexivity|].
    ob X. destruct p as (s2, z2). injection X as <- _ _. exact (Hs 11 _ _ _ X1).
  - injection E as <- _. intros k _. reflexivity.
Qed.

Definition has_base (u : ucmd) (n : N) (s : scan) : Prop := recs (sc_db s) (base_key u) = Some (Rec (u_seq u) 1 (u_gen u) DM [two_bytes (n mod 65536)]).
Lemma base_in u : In (base_key u) (cookie_keys u). Proof. right. left. reflexivity. Qed.
Lemma leaves_base u n s s' : leaves u s s' -> has_base u n s -> has_base u n s'.
Proof. intros L H. unfold has_base. rewrite (L _ (base_in u)). exact H. Qed.
Lemma leaves_carries u n s s' : leaves u s s' -> carries (sc_db s) u n -> carries (sc_db s') u n.
Proof.
  intros L ((t & (N & o & R & Rest) & T) & Wb & Wf). split; [|split].
  - exists t. split; [|exact T]. split; [exact N|]. exists o. split; [rewrite (L (cookie_var u)) by (left; reflexivity); exact R|exact Rest].
  - intros o1 E. apply Wb. rewrite <- E. symmetry. apply L. right. left. reflexivity.
  - intros o1 E. apply Wf. rewrite <- E. symmetry. apply L. right. right. left. reflexivity.
Qed.
Lemma leaves_refl u s : leaves u s s. Proof. intros k _. reflexivity. Qed.
Lemma leaves_trans u a b c : leaves u a b -> leaves u b c -> leaves u a c.
Proof. intros H1 H2 k Hk. rewrite (H2 k Hk). apply H1, Hk. Qed.
Lemma props_base d u n : carries d u n -> exists d', get_cookie_props d u = Ok (d', 1%Z, (n / 65536)%N) /\ forall s, has_base u n (with_db s d').
Proof.
  intros ((t & Ht & T & V) & Wb & Wf). destruct (proj1 (cookie_lemma d u t Ht Wb Wf) n T V) as (d' & E & C & _). exists d'. split; [exact E|]. intros s. exact C.
Qed.
Lemma pre_base q n s s' r : (forall p, harmless (dp_ucmd q) (dp_sub q p)) -> carries (sc_db s) (dp_ucmd q) n -> dm_fn q 1 s = Ok (s', r) -> has_base (dp_ucmd q) n s'.
Proof.
  intros Hs C E. destruct (props_base _ _ _ C) as (d' & P & Hb). rewrite fn_old in E; cbn [dm_old] in E. unfold dm_scan_pre in E. rewrite P in E. cbn [obind] in E. change (1 <? 0)%Z with false in E. cbv iota in E.
  specialize (Hb s). set (s1 := with_db s d') in *. ob E. destruct p as [v|]; [|injection E as <- _; exact Hb].
  ob E. destruct p as (s2, ready). apply get_ready_others in X0 as (D & _). assert (H2 : has_base (dp_ucmd q) n s2) by (unfold has_base; rewrite D; exact Hb).
  destruct (_ && _)%bool; [injection E as <- _; exact H2|]. ob E. destruct p as (s3, z). assert (H3 : has_base (dp_ucmd q) n s3).
  { refine (leaves_base _ _ _ _ _ H2). destruct (key_eqb v (B "1")); [exact (ready_same _ _ _ _ _ _ _ X0)|exact (switch_same _ _ _ _ _ _ _ _ X0)]. }
  destruct (z <? 0)%Z; [injection E as <- _; exact H3|]. ob E. destruct p as (s4, z4). injection E as <- _. exact (leaves_base _ _ _ _ (Hs 1 _ _ _ X1) H3).
Qed.
Lemma remove_base q n s s' r : (forall p, harmless (dp_ucmd q) (dp_sub q p)) -> (forall m p, In m (dp_subs q) -> harmless (dp_ucmd q) (sm_run m p)) ->
  carries (sc_db s) (dp_ucmd q) n -> dm_fn q 7 s = Ok (s', r) -> has_base (dp_ucmd q) n s'.
Proof.
  intros Hs Hl C E. destruct (props_base _ _ _ C) as (d' & P & Hb). rewrite fn_old in E; cbn [dm_old] in E. unfold dm_remove_init in E. rewrite P in E. cbn [obind] in E. change (1 <? 0)%Z with false in E. cbv iota in E.
  specialize (Hb s). ob E. destruct p as ((s1, m), z). pose proof (leaves_base _ _ _ _ (init_same _ _ _ _ _ _ Hl X) Hb) as H1.
  destruct (z <? 0)%Z; [injection E as <- _; exact H1|]. exact (leaves_base _ _ _ _ (sub_same _ _ _ _ _ (Hs _) E) H1).
Qed.

(* phases *)
Lemma fn_harmless e dm q m p f : dm_device e dm q -> e_fn e m p = Some f -> m <> dm \/ (p <> 1 /\ p <> 7) -> harmless (dp_ucmd q) f.
Proof.
  intros (_ & _ & F & _ & _ & _ & O & Hs & Hl) E N. destruct (Nat.eq_dec m dm) as [->|Nm]; [|exact (O _ _ _ Nm E)].
  destruct N as [N|(N1 & N7)]; [contradiction|]. rewrite F in E. injection E as <-. apply dm_harmless; assumption.
Qed.
Lemma did_leaves e dm q p s cs s' : dm_device e dm q -> did e p s cs s' -> (p <> 1 /\ p <> 7) \/ (forall c, In c cs -> module c <> dm) -> leaves (dp_ucmd q) s s'.
Proof.
  intros D H. induction H as [s|s m f s1 r cs s2 F P E H IH]; intros N; [apply leaves_refl|].
  assert (A : leaves (dp_ucmd q) s s1). { refine (fn_harmless e dm q m p f D F _ _ _ _ E). destruct N as [N|N]; [right; exact N|left; apply (N (m, p, r)); left; reflexivity]. }
  refine (leaves_trans _ _ _ _ A (IH _)). destruct N as [N|N]; [left; exact N|right; intros c I; apply N; right; exact I].
Qed.
Lemma did_phases e p s cs s' : did e p s cs s' -> forall c, In c cs -> phase_of c = p.
Proof. intros H. induction H; intros c I; [contradiction|]. destruct I as [<-|I]; [reflexivity|apply IHdid, I]. Qed.
Lemma did_split e p s a b s' : did e p s (a ++ b) s' -> exists s1, did e p s a s1 /\ did e p s1 b s'.
Proof.
  revert s. induction a as [|c a IH]; intros s H; [exists s; split; [constructor|exact H]|]. cbn [app] in H. inversion H as [|s0 m f s1 r cs s2 F P E K]; subst.
  destruct (IH _ K) as (s3 & A1 & A2). exists s3. split; [econstructor; eauto|exact A2].
Qed.
Lemma block_calls e p l bs dm : up_to_failure (filter (serves e p) l) bs -> ~ In dm l -> forall c, In c bs -> module c <> dm.
Proof.
  intros (rest & E & _) N c I X. apply N. assert (J : In (module c) (filter (serves e p) l)) by (rewrite E; apply in_or_app; left; apply in_map, I).
  rewrite X in J. apply filter_In in J. apply J.
Qed.
Lemma phase_calls e p x x' r : keeps_phase e -> p <= 14 -> exec_phase e p x = Ok (x', r) -> exists cs, x_calls x' = x_calls x ++ cs /\ forall c, In c cs -> phase_of c = p.
Proof.
  intros K L E. destruct (phase_lemma e p x x' r K L E) as [((bs & ts & s0 & s1 & A & B & _) & _)|[(A & _)|(A & _)]].
  - eexists. split; [exact A|]. exact (did_phases _ _ _ _ _ B).
  - exists []. rewrite app_nil_r. split; [exact A|contradiction].
  - exists []. rewrite app_nil_r. split; [exact A|contradiction].
Qed.
Lemma phase_executes_lemma e p x x' r : keeps_phase e -> p <= PHASE_ERROR -> exec_phase e p x = Ok (x', r) ->
  ran_phase e p x x' r
  \/ no_calls x x' /\ r = 1%Z /\ In p [A_SCAN_CURRENT; A_SCAN_NEXT; A_SCAN_POST_CURRENT; A_SCAN_POST_NEXT]
     /\ sc_db (x_scan x') = sc_db (x_scan x) /\ x_current x' = x_current x /\ x_next x' = x_next x
  \/ no_calls x x' /\ r = (-1)%Z /\ In p [A_INIT; REMOVE_INIT]
     /\ e_prepare e (Scan (sc_db (x_scan x)) p (sc_ready (x_scan x)) (sc_reserved (x_scan x))) = Ok (x_scan x', None).
Proof.
  exact (fun K L E => match phase_lemma e p x x' r K L E with
    | or_introl (conj A _) => or_introl A
    | or_intror (or_introl (conj A (conj (conj F1 (conj F2 _)) (conj B (conj C (conj _ D)))))) => or_intror (or_introl (conj A (conj B (conj C (conj D (conj F1 F2))))))
    | or_intror (or_intror (conj A (conj _ (conj B (conj C D))))) => or_intror (or_intror (conj A (conj B (conj C D)))) end).
Qed.
(* the phases that do not read the cookie *)
Lemma exit_leaves e dm q x x' r : dm_device e dm q -> exec_phase e 6 x = Ok (x', r) -> leaves (dp_ucmd q) (x_scan x) (x_scan x') /\ x_current x' = x_current x.
Proof.
  intros D E. pose proof D as (K & U & _). cbn [exec_phase] in E. unfold a_exit in E.
  ob E. destruct p as (x1, r1). apply tb_lemma in X; [|exact K]. cbn [x_scan with_scan sc_phase] in X. destruct X as (bs & ts & X).
  assert (S1 : leaves (dp_ucmd q) (x_scan x) (x_scan x1) /\ x_current x1 = x_current x).
  { decompose [and] X. match goal with H : did _ _ _ _ _ |- _ => apply (did_leaves e dm q) in H; [|exact D|left; split; discriminate]; split; [exact H|] end.
    match goal with H : frame _ _ |- _ => apply H end. }
  clear X. ob E. destruct p as (x2, ready). apply ready_of_lemma in X as (Db & _ & (Fc & _) & _).
  assert (S2 : leaves (dp_ucmd q) (x_scan x) (x_scan x2) /\ x_current x2 = x_current x).
  { split; [intros k Hk; rewrite Db; apply S1, Hk|rewrite Fc; apply S1]. }
  ob E. destruct p as (x3, r3). assert (S3 : leaves (dp_ucmd q) (x_scan x) (x_scan x3) /\ x_current x3 = x_current x).
  { destruct (ready =? RDY_UNPROCESSED)%N; [|injection X as <- _; exact S2]. ob X. destruct p as (s3, z). injection X as <- _. cbn [x_scan x_current with_scan].
    split; [|apply S2]. refine (leaves_trans _ _ _ _ (proj1 S2) _). rewrite <- U. rewrite <- U in *. exact (ready_same _ _ _ _ _ _ _ X0). }
  ob E. destruct p as (s4, res). apply get_reserved_others in X0 as (D4 & _).
  assert (S4 : leaves (dp_ucmd q) (x_scan x) s4) by (intros k Hk; rewrite D4; apply S3, Hk).
  cbn [x_scan with_scan] in E. destruct (res =? RES_UNPROCESSED)%N; [|injection E as <- _; cbn [x_scan x_current with_scan]; split; [exact S4|apply S3]].
  ob E. destruct p as (s5, z). injection E as <- _. cbn [x_scan x_current with_scan]. split; [|apply S3]. refine (leaves_trans _ _ _ _ S4 _).
  rewrite <- U. exact (reserved_same _ _ _ _ _ _ _ X0).
Qed.
Lemma phase_leaves e dm q p x x' r : dm_device e dm q -> p <= 14 -> p <> 0 -> p <> 1 -> p <> 7 -> x_current x = Some dm -> exec_phase e p x = Ok (x', r) ->
  leaves (dp_ucmd q) (x_scan x) (x_scan x') /\ x_current x' = Some dm.
Proof.
  intros D L N0 N1 N7 C E. destruct (Nat.eq_dec p 6) as [->|N6]; [rewrite <- C; exact (exit_leaves _ _ _ _ _ _ D E)|].
  pose proof D as (K & U & _ & _ & _ & Hd & _).
  destruct (phase_executes_lemma e p x x' r K L E) as [(bs & ts & s0 & s1 & _ & B & _ & _ & _ & _ & Cn & _ & _ & S & _ & Rm)|[(_ & _ & _ & Db & Cc & _)|(_ & _ & I & _)]].
  - assert (NI : ~ In p [A_INIT; REMOVE_INIT]) by (intros [X|[X|[]]]; unfold A_INIT, REMOVE_INIT in X; lia).
    destruct (Cn NI) as (Cc & [Db|(_ & Cx & _)]); [|congruence]. split; [|congruence].
    apply (did_leaves e dm q) in B; [|exact D|left; auto]. assert (S0 : leaves (dp_ucmd q) (x_scan x) s1) by (intros k Hk; rewrite (B k Hk), Db; reflexivity).
    destruct (Nat.eq_dec p 8) as [->|N8].
    + destruct (Rm eq_refl) as [(_ & _ & <-)|(_ & Ed)]; [exact S0|]. exact (leaves_trans _ _ _ _ S0 (Hd _ _ _ Ed)).
    + rewrite <- (S N6 N8). exact S0.
  - split; [intros k Hk; rewrite Db; reflexivity|congruence].
  - destruct I as [X|[X|[]]]; unfold A_INIT, REMOVE_INIT in X; lia.
Qed.
Lemma one_type e dm q p s ts s' : dm_device e dm q -> map module ts = filter (serves e p) [dm] -> did e p s ts s' -> exists r, ts = [(dm, p, r)] /\ dm_fn q p s = Ok (s', r).
Proof.
  intros (_ & _ & F & _) M H. cbn [filter] in M. unfold serves in M. rewrite F in M. destruct ts as [|c [|c2 ts]]; try discriminate M. injection M as M.
  inversion H as [|s0 m f s1 r cs s2 Fm P E K]; subst. inversion K; subst. cbn [module fst] in *. try subst m. rewrite F in Fm. injection Fm as <-. exists r. split; [reflexivity|exact E].
Qed.
Lemma init_phase e dm q p x x' r : dm_device e dm q -> p = 0 \/ p = 7 -> exec_phase e p x = Ok (x', r) -> passed r ->
  x_current x' = Some dm /\ exists s1 z, leaves (dp_ucmd q) (x_scan x) s1 /\ dm_fn q p s1 = Ok (x_scan x', z).
Proof.
  intros D P E Pa. pose proof D as (K & _ & _ & Nb & Pr & _). assert (L : p <= 14) by lia.
  destruct (phase_executes_lemma e p x x' r K L E) as [(bs & ts & s0 & s1 & _ & B & Up & M & _ & In0 & _ & _ & _ & S & _ & _)|[(_ & _ & I & _)|(_ & -> & _)]].
  - destruct In0 as (cur & Ep & Cc); [destruct P as [-> | ->]; [left|right; left]; reflexivity|]. destruct (Pr _ _ _ Ep) as (L0 & [X|X]); [discriminate|]. injection X as ->. split; [exact Cc|].
    assert (Ex : exits p = false) by (destruct P as [-> | ->]; reflexivity). rewrite Ex in B, Up. assert (T : type_mods p x' = [dm]) by (destruct P as [-> | ->]; cbn; rewrite Cc; reflexivity).
    rewrite T in M. destruct (did_split _ _ _ _ _ _ B) as (s2 & B1 & B2). destruct (one_type e dm q p s2 ts s1 D M B2) as (z & _ & Ez).
    rewrite (S ltac:(unfold A_EXIT; lia) ltac:(unfold REMOVE_CURRENT; lia)) in Ez. exists s2, z. split; [|exact Ez].
    pose proof (did_leaves e dm q p s0 bs s2 D B1 (or_intror (block_calls e p _ bs dm Up Nb))) as L1. intros k Hk. rewrite (L1 k Hk). exact (L0 k Hk).
  - exfalso. destruct P as [-> | ->]; cbn in I; decompose [or] I; try discriminate; contradiction.
  - destruct Pa; discriminate.
Qed.
Lemma type_phase e dm q p x x' r : dm_device e dm q -> p = 1 \/ p = 10 \/ p = 11 -> x_current x = Some dm -> exec_phase e p x = Ok (x', r) ->
  x_current x' = Some dm /\ exists s0 bs s z, did e p s0 bs s /\ leaves (dp_ucmd q) (x_scan x) s /\ dm_fn q p s = Ok (x_scan x', z)
    /\ x_calls x' = x_calls x ++ bs ++ [(dm, p, z)] /\ (forall c, In c bs -> module c <> dm) /\ (passed r \/ r = (-1)%Z).
Proof.
  intros D P C E. pose proof D as (K & _ & _ & Nb & _). assert (L : p <= 14) by lia.
  destruct (phase_executes_lemma e p x x' r K L E) as [(bs & ts & s0 & s1 & A & B & Up & M & _ & _ & Cn & _ & _ & S & Rr & _)|[(_ & _ & I & _)|(_ & _ & I & _)]].
  - assert (NI : ~ In p [A_INIT; REMOVE_INIT]) by (intros [X|[X|[]]]; unfold A_INIT, REMOVE_INIT in X; lia).
    destruct (Cn NI) as (Cc & [Db|(X & _)]); [|unfold A_SCAN_CURRENT in X; lia]. rewrite C in Cc. split; [exact Cc|].
    assert (Ex : exits p = false) by (destruct P as [-> | [-> | ->]]; reflexivity). rewrite Ex in A, B, Up. assert (T : type_mods p x' = [dm]) by (destruct P as [-> | [-> | ->]]; cbn; rewrite Cc; reflexivity).
    rewrite T in M. destruct (did_split _ _ _ _ _ _ B) as (s2 & B1 & B2). destruct (one_type e dm q p s2 ts s1 D M B2) as (z & -> & Ez).
    rewrite (S ltac:(unfold A_EXIT; lia) ltac:(unfold REMOVE_CURRENT; lia)) in Ez. pose proof (block_calls e p _ bs dm Up Nb) as Bc. exists s0, bs, s2, z. split; [exact B1|]. split.
    { pose proof (did_leaves e dm q p s0 bs s2 D B1 (or_intror Bc)) as L1. intros k Hk. rewrite (L1 k Hk), Db. reflexivity. }
    split; [exact Ez|]. split; [exact A|]. split; [exact Bc|]. destruct (proj2 (Rr ltac:(unfold REMOVE_CURRENT; lia))) as [-> | ->]; [right; reflexivity|left; left; reflexivity].
  - exfalso. destruct P as [-> | [-> | ->]]; cbn in I; decompose [or] I; try discriminate; contradiction.
  - exfalso. destruct P as [-> | [-> | ->]]; cbn in I; decompose [or] I; try discriminate; contradiction.
Qed.
Definition plain_phase (p : nat) : Prop := p <= 14 /\ ~ In p [0; 1; 7; 11].
Lemma runs_plain e dm q : dm_device e dm q -> forall ps x rs x', runs e ps x rs x' -> (forall p, In p ps -> plain_phase p) -> x_current x = Some dm ->
  leaves (dp_ucmd q) (x_scan x) (x_scan x') /\ x_current x' = Some dm.
Proof.
  intros D ps x rs x' R. induction R as [x|p ps x x1 r rs x2 E R IH]; intros H C; [split; [apply leaves_refl|exact C]|].
  destruct (H p (or_introl eq_refl)) as (L & N). cbn [In] in N. destruct (phase_leaves e dm q p x x1 r D L ltac:(intuition auto) ltac:(intuition auto) ltac:(intuition auto) C E) as (A & B).
  destruct (IH (fun p I => H p (or_intror I)) B) as (A2 & B2). split; [exact (leaves_trans _ _ _ _ A A2)|exact B2].
Qed.
Lemma phase_quiet e dm p x x' r : keeps_phase e -> p <= 14 -> p <> 11 -> exec_phase e p x = Ok (x', r) -> exists cs, x_calls x' = x_calls x ++ cs /\ filter (lowering dm) cs = [].
Proof.
  intros K L N E. destruct (phase_calls e p x x' r K L E) as (cs & A & B). exists cs. split; [exact A|]. clear - B N. induction cs as [|c cs IH]; [reflexivity|].
  cbn [filter]. unfold lowering at 1. rewrite (B c (or_introl eq_refl)). replace (p =? B_ACTION_CURRENT) with false by (unfold B_ACTION_CURRENT; lia). rewrite andb_false_r. apply IH. intros y I. apply B. right. exact I.
Qed.
Lemma runs_quiet e dm : keeps_phase e -> forall ps x rs x', runs e ps x rs x' -> (forall p, In p ps -> p <= 14 /\ p <> 11) -> exists cs, x_calls x' = x_calls x ++ cs /\ filter (lowering dm) cs = [].
Proof.
  intros K ps x rs x' R. induction R as [x|p ps x x1 r rs x2 E R IH]; intros H; [exists []; rewrite app_nil_r; auto|].
  destruct (H p (or_introl eq_refl)) as (L & N). destruct (phase_quiet e dm p x x1 r K L N E) as (c1 & A1 & F1). destruct (IH (fun p I => H p (or_intror I))) as (c2 & A2 & F2).
  exists (c1 ++ c2). split; [rewrite A2, A1, app_assoc; reflexivity|]. rewrite filter_app, F1, F2. reflexivity.
Qed.
Lemma last_in (l : list nat) d : l <> [] -> In (last l d) l.
Proof. induction l as [|a [|b l] IH]; [contradiction|left; reflexivity|]. intros _. right. apply IH. discriminate. Qed.
Lemma stage_quiet e dm remove x x' c : keeps_phase e -> exec_scan e 1 remove x = Ok (x', c) -> exists cs, x_calls x' = x_calls x ++ cs /\ filter (lowering dm) cs = [].
Proof.
  intros K E. apply stage_lemma in E; [|left; reflexivity].
  assert (S : forall p, In p (stage_phases 1 remove) -> p <= 14 /\ p <> 11) by (intros p I; destruct remove; cbv in I; lia).
  destruct E as [(rs & R & _)|[(pre & p & post & rs & r & Ep & _ & _ & _ & _ & R)|(pre & p & post & rs & r & r2 & r3 & Ep & _ & _ & _ & _ & _ & R)]].
  - exact (runs_quiet e dm K _ _ _ _ R S).
  - refine (runs_quiet e dm K _ _ _ _ R _). intros y I. apply S. rewrite Ep. apply in_app_or in I as [I|[<-|[]]]; apply in_or_app; [left; exact I|right; left; reflexivity].
  - refine (runs_quiet e dm K _ _ _ _ R _). intros y I. apply in_app_or in I as [I|[<-|[<-|[<-|[]]]]].
    + apply S. rewrite Ep. apply in_or_app. left. exact I.
    + apply S. rewrite Ep. apply in_or_app. right. left. reflexivity.
    + unfold PHASE_ERROR. lia.
    + apply S, last_in. destruct remove; discriminate.
Qed.
(* a stage that does not fail: its first phase passed, then the second and others *)
Lemma stage_shape e stage remove x x' : stage = 1 \/ stage = 2 -> exec_scan e stage remove x = Ok (x', 0%Z) ->
  exists h t post more r rs x1, stage_phases stage remove = h :: t :: post /\ exec_phase e h x = Ok (x1, r) /\ passed r /\ runs e (t :: more) x1 rs x'
    /\ (forall p, In p more -> In p post \/ p = PHASE_ERROR \/ p = last (stage_phases stage remove) 0).
Proof.
  intros St E. apply stage_lemma in E; [|exact St]. assert (Sh : exists h t post, stage_phases stage remove = h :: t :: post) by (destruct St as [-> | ->]; destruct remove; do 3 eexists; reflexivity).
  destruct Sh as (h & t & post & Sh). rewrite Sh in *.
  destruct E as [(rs & R & P & _)|[(pre & p & post' & rs & r & _ & _ & _ & _ & X & _)|(pre & p & post' & rs & r & r2 & r3 & Ep & P & _ & Np & _ & _ & R)]]; [|discriminate|].
  - apply runs_cons in R as (r & rs' & x1 & -> & E1 & R). inversion P; subst. exists h, t, post, post, r, rs', x1. repeat (split; [reflexivity || assumption|]). auto.
  - destruct pre as [|h' pre]; [contradiction|]. injection Ep as <- Ep. pose proof (runs_length _ _ _ _ _ R) as Ln. rewrite !app_length in Ln. cbn [length] in Ln.
    destruct rs as [|r0 rs]; [cbn [length] in Ln; lia|]. cbn [app] in R. apply runs_cons in R as (r' & rs' & x1 & Er & E1 & R). injection Er as <- <-. inversion P; subst.
    destruct pre as [|t' pre]; cbn [app] in Ep, R.
    + injection Ep as <- <-. exists h, t, post, [PHASE_ERROR; last (h :: t :: post) 0], r0, (rs ++ [r; r2; r3]), x1. repeat (split; [reflexivity || assumption|]).
      intros y [<-|[<-|[]]]; auto.
    + injection Ep as <- ->. exists h, t, (pre ++ p :: post'), (pre ++ [p; PHASE_ERROR; last (h :: t :: pre ++ p :: post') 0]), r0, (rs ++ [r; r2; r3]), x1.
      repeat (split; [reflexivity || assumption|]). intros y I. apply in_app_or in I as [I|[<-|[<-|[<-|[]]]]]; auto.
      * left. apply in_or_app. left. exact I.
      * left. apply in_or_app. right. left. reflexivity.
Qed.
Lemma stage1_base e dm q n remove x x' : dm_device e dm q -> carries (sc_db (x_scan x)) (dp_ucmd q) n -> exec_scan e 1 remove x = Ok (x', 0%Z) ->
  has_base (dp_ucmd q) n (x_scan x') /\ x_current x' = Some dm.
Proof.
  intros D Ca E. pose proof D as (_ & _ & _ & _ & _ & _ & _ & Hs & Hl). destruct (stage_shape e 1 remove x x' (or_introl eq_refl) E) as (h & t & post & more & r & rs & x1 & Sh & E1 & P & R & M).
  destruct remove; cbv in Sh; injection Sh as <- <- <-.
  - destruct (init_phase e dm q 7 x x1 r D (or_intror eq_refl) E1 P) as (C1 & s1 & z & L & F). pose proof (remove_base q n s1 _ z Hs Hl (leaves_carries _ _ _ _ L Ca) F) as H1.
    destruct (runs_plain e dm q D _ _ _ _ R) as (L2 & C2); [|exact C1|split; [exact (leaves_base _ _ _ _ L2 H1)|exact C2]].
    intros p [<-|I]; [split; [lia|cbn; lia]|]. specialize (M p I). cbv in M. unfold plain_phase in *. cbn [In]. lia.
  - destruct (init_phase e dm q 0 x x1 r D (or_introl eq_refl) E1 P) as (C1 & s1 & z & L & F).
    assert (L1 : leaves (dp_ucmd q) (x_scan x) (x_scan x1)) by (exact (leaves_trans _ _ _ _ L (dm_harmless q 0 Hs Hl ltac:(discriminate) ltac:(discriminate) _ _ _ F))).
    apply runs_cons in R as (r1 & rs' & x2 & -> & E2 & R). destruct (type_phase e dm q 1 x1 x2 r1 D (or_introl eq_refl) C1 E2) as (C2 & s0 & bs & s & z2 & _ & L2 & F2 & _).
    pose proof (pre_base q n s _ z2 Hs (leaves_carries _ _ _ _ (leaves_trans _ _ _ _ L1 L2) Ca) F2) as H2.
    destruct (runs_plain e dm q D _ _ _ _ R) as (L3 & C3); [|exact C2|split; [exact (leaves_base _ _ _ _ L3 H2)|exact C3]].
    intros p I. specialize (M p I). cbv in M. unfold plain_phase in *. cbn [In]. lia.
Qed.
Lemma stage2_shape e remove x x' c : exec_scan e 2 remove x = Ok (x', c) ->
  (exists r, exec_phase e 10 x = Ok (x', r) /\ ~ passed r /\ c = (-1)%Z)
  \/ (exists r x1 more rs, exec_phase e 10 x = Ok (x1, r) /\ passed r /\ runs e (11 :: more) x1 rs x' /\ (forall p, In p more -> p <= 14 /\ ~ In p [0; 1; 7; 11])).
Proof.
  intros E. assert (Cc : c = 0%Z \/ c = (-1)%Z).
  { destruct (stage_lemma e 2 remove x x' c (or_intror eq_refl) E) as [(rs & _ & _ & ->)|[(pre & p & post & rs & r & _ & _ & _ & _ & -> & _)|(pre & p & post & rs & r & r2 & r3 & _ & _ & _ & _ & _ & -> & _)]]; auto. }
  destruct Cc as [-> | ->].
  - right. destruct (stage_shape e 2 remove x x' (or_intror eq_refl) E) as (h & t & post & more & r & rs & x1 & Sh & E1 & P & R & M). cbv in Sh. injection Sh as <- <- <-.
    exists r, x1, more, rs. split; [exact E1|]. split; [exact P|]. split; [exact R|]. intros p I. specialize (M p I). cbv in M. cbn [In]. lia.
  - destruct (stage_lemma e 2 remove x x' (-1)%Z (or_intror eq_refl) E) as [(rs & _ & _ & X)|[(pre & p & post & rs & r & Ep & P & N & Ends & _ & R)|(pre & p & post & rs & r & r2 & r3 & _ & _ & _ & _ & _ & X & _)]]; [discriminate| |discriminate].
    change (stage_phases 2 remove) with [10; 11; 12; 13] in Ep. destruct pre as [|h pre].
    + injection Ep as <- _. left. pose proof (runs_length _ _ _ _ _ R) as Ln. rewrite app_length in Ln. cbn [length app] in Ln. destruct rs as [|]; [|cbn [length] in Ln; lia]. cbn [app] in R.
      apply runs_cons in R as (r' & rs' & x1 & Er & E1 & R). injection Er as <- <-. inversion R; subst. exists r. auto.
    + right. destruct Ends as [X| ->]; [discriminate|]. destruct pre as [|a pre]; [discriminate|]. destruct pre as [|b pre]; [discriminate|]. destruct pre as [|c pre]; [|destruct pre; discriminate]. injection Ep as <- <- <- <-.
      cbn [app] in R. apply runs_cons in R as (r' & rs' & x1 & Er & E1 & R). destruct rs as [|r0 rs]; [destruct rs'; [inversion R|discriminate]|]. injection Er as <- <-. inversion P; subst.
      exists r0, x1, [12; 13], (rs ++ [r]). split; [exact E1|]. split; [assumption|]. split; [exact R|]. intros p [<-|[<-|[]]]; cbn [In]; lia.
Qed.
Lemma once_lemma e dm q n export remove x x' c i : dm_device e dm q -> carries (sc_db (x_scan x)) (dp_ucmd q) n -> (forall s, leaves (dp_ucmd q) s (export s)) ->
  sem_get (dp_sems q) (sem_key n) = Some i -> sem_ctl (dp_sems q) i = true -> sem_op (dp_sems q) i = true -> scan_command e export remove x = Ok (x', c) ->
  exists cs, x_calls x' = x_calls x ++ cs /\ (lowered_once e dm q cs [i] \/ never_lowered dm cs /\ c = (-1)%Z).
Proof.
  intros D Ca Hx G1 G2 G3 E. pose proof D as (K & _). unfold scan_command in E. ob E. destruct p as (x1, c1).
  destruct (stage_quiet e dm remove x x1 c1 K X) as (cs1 & A1 & F1).
  assert (Cc : c1 = 0%Z \/ c1 = (-1)%Z).
  { destruct (stage_lemma e 1 remove x x1 c1 (or_introl eq_refl) X) as [(rs & _ & _ & ->)|[(pre & p & post & rs & r & _ & _ & _ & _ & -> & _)|(pre & p & post & rs & r & r2 & r3 & _ & _ & _ & _ & _ & -> & _)]]; auto. }
  destruct Cc as [-> | ->]; [|injection E as <- <-; exists cs1; split; [exact A1|right; split; [exact F1|reflexivity]]].
  change (0 <? 0)%Z with false in E. cbv iota in E. destruct (stage1_base e dm q n remove x x1 D Ca X) as (H1 & C1).
  set (y := with_scan x1 (export (x_scan x1))) in *. assert (Hy : has_base (dp_ucmd q) n (x_scan y)) by exact (leaves_base _ _ _ _ (Hx (x_scan x1)) H1). assert (Cy : x_current y = Some dm) by exact C1.
  assert (Ay : x_calls y = x_calls x ++ cs1) by exact A1.
  destruct (stage2_shape e remove y x' c E) as [(r & E2 & _ & ->)|(r & x2 & more & rs & E2 & P & R & M)].
  - destruct (phase_quiet e dm 10 y x' r K ltac:(lia) ltac:(discriminate) E2) as (cs2 & A2 & F2). exists (cs1 ++ cs2). split; [rewrite A2, Ay, app_assoc; reflexivity|]. right. split; [|reflexivity].
    unfold never_lowered. rewrite filter_app, F1, F2. reflexivity.
  - destruct (phase_quiet e dm 10 y x2 r K ltac:(lia) ltac:(discriminate) E2) as (cs2 & A2 & F2).
    destruct (phase_leaves e dm q 10 y x2 r D ltac:(lia) ltac:(discriminate) ltac:(discriminate) ltac:(discriminate) Cy E2) as (L2 & C2).
    apply runs_cons in R as (r3 & rs' & x3 & -> & E3 & R). destruct (type_phase e dm q 11 x2 x3 r3 D (or_intror (or_intror eq_refl)) C2 E3) as (C3 & s0 & bs & s & z & Dd & L3 & F3 & A3 & Bm & _).
    destruct (runs_quiet e dm K _ _ _ _ R) as (cs4 & A4 & F4). { intros p I. destruct (M p I) as (Lp & Np). split; [exact Lp|]. intros ->. apply Np. cbn. auto. }
    exists (cs1 ++ cs2 ++ (bs ++ [(dm, 11, z)]) ++ cs4). split; [rewrite A4, A3, A2, Ay, <- !app_assoc; reflexivity|]. left.
    pose proof (leaves_base _ _ _ _ (leaves_trans _ _ _ _ L2 L3) Hy) as Hs. destruct Ca as ((t & _ & _ & V) & _).
    assert (Rd : reads (sc_db s) DM (base_key (dp_ucmd q)) (two_bytes (n mod 65536))) by (exact (own_reads _ _ _ _ Hs eq_refl Dm_Proofs.dm_nul _ eq_refl)).
    rewrite fn_old in F3; cbn [dm_old] in F3. ob F3. destruct p as ((s4, z4), l4). injection F3 as -> ->. pose proof X0 as X1. rewrite (proj1 (complete_lemma s (dp_ucmd q) (dp_sems q) n (dp_sub q 11) V Rd) i G1 G2 G3) in X0.
    ob X0. destruct p as (s5, z5). injection X0 as _ _ <-. exists s0, bs, s, (x_scan x3), z. split; [exact Dd|]. split.
    { intros c0 I. apply in_or_app. right. apply in_or_app. right. apply in_or_app. left. apply in_or_app. left. exact I. }
    split; [exact X1|]. rewrite !filter_app, F1, F2, F4, app_nil_r. cbn [app filter]. replace (filter (lowering dm) bs) with (@nil call).
    + unfold lowering. cbn [module phase_of fst snd]. rewrite !Nat.eqb_refl. reflexivity.
    + clear - Bm. induction bs as [|b bs IH]; [reflexivity|]. cbn [filter]. unfold lowering at 1. replace (module b =? dm) with false by (specialize (Bm b (or_introl eq_refl)); lia). cbn [andb].
      apply IH. intros c I. apply Bm. right. exact I.
Qed.
(* other modules and what they do may be undefined elsewhere: not needed *)
Lemma loop_ok e dm l : (forall m p f s, m <> dm -> e_fn e m p = Some f -> f s <> UB) -> ~ In dm l -> forall x, exists x' r, block_loop e x l = Ok (x', r).
Proof.
  intros De. induction l as [|m l IH]; intros N x; [exists x, 0%Z; reflexivity|]. cbn [block_loop]. unfold call_fn.
  assert (Nm : m <> dm) by (intros ->; apply N; left; reflexivity). assert (Nl : ~ In dm l) by (intros I; apply N; right; exact I).
  destruct (e_fn e m (sc_phase (x_scan x))) as [f|] eqn:F.
  - destruct (f (x_scan x)) as [(s, r)|] eqn:Es; [|destruct (De _ _ _ _ Nm F Es)]. cbn [obind]. destruct (r <? 0)%Z; [eauto|apply IH, Nl].
  - cbn [obind]. change (0 <? 0)%Z with false. cbv iota. apply IH, Nl.
Qed.
Lemma gone_lemma e dm q export x ou on os s : dm_device e dm q -> (forall m p f s, m <> dm -> e_fn e m p = Some f -> f s <> UB) ->
  e_prepare e (Scan (sc_db (x_scan x)) A_INIT (sc_ready (x_scan x)) (sc_reserved (x_scan x))) = Ok (s, Some (Some dm)) ->
  length (dp_buuid q) = 129 -> length (dp_bname q) = 128 -> length (dp_bsusp q) = 10 -> shows 128 (dp_uuid q) ou -> shows 127 (dp_name q) on -> shows 9 (dp_susp q) os ->
  (ou = None \/ on = None \/ on = Some [] \/ os = None \/ os = Some []) ->
  exists x' cs, scan_command e export false x = Ok (x', (-1)%Z) /\ x_calls x' = x_calls x ++ cs /\ never_lowered dm cs.
Proof.
  intros D De Pr L1 L2 L3 S1 S2 S3 M. pose proof D as (K & _ & F & Nb & _).
  assert (E : exists x', exec_phase e 0 x = Ok (x', (-1)%Z)).
  { cbn [exec_phase]. unfold common_scan_init. cbn [x_scan with_scan]. change 0 with A_INIT. rewrite Pr. cbn [obind]. unfold exec_block_mods. cbn [x_iter].
    set (x0 := Xst s _ _ true _). destruct (loop_ok e dm (e_blocks e) De Nb x0) as (x1 & r & B). rewrite B. cbn [obind].
    apply block_loop_lemma in B as (bs & _ & B2 & _ & _); [|exact K]. assert (SP : sc_phase s = 0) by (rewrite (proj2 K _ _ _ Pr); reflexivity).
    change (sc_phase (x_scan x0)) with (sc_phase s) in B2. rewrite SP in B2. pose proof (did_phase e 0 _ _ _ K B2 SP) as P1.
    unfold exec_type_mod, call_fn. cbn [x_scan]. rewrite P1, F, fn_old. cbn [dm_old]. rewrite (init_fail (x_scan x1) (dp_ucmd q) (dp_subs q) _ _ _ _ _ _ ou on os L1 L2 L3 S1 S2 S3 M). cbn [obind]. eexists. reflexivity. }
  destruct E as (x' & E). assert (E1 : exec_scan e 1 false x = Ok (x', (-1)%Z)) by (cbn [exec_scan]; rewrite loop_step by (unfold A_INIT, A_EXIT; lia); change A_INIT with 0; rewrite E; reflexivity).
  destruct (stage_quiet e dm false x x' (-1)%Z K E1) as (cs & A & N). exists x', cs. split; [|split; [exact A|exact N]]. unfold scan_command. rewrite E1. reflexivity.
Qed.

(* the functions of the module do not change the phase *)
Definition still (f : scan -> outcome (scan * Z)) : Prop := forall s s' r, f s = Ok (s', r) -> sc_phase s' = sc_phase s.
Lemma get_ready_phase s u w a s' n : get_ready s u w a = Ok (s', n) -> sc_phase s' = sc_phase s.
Proof.
  unfold get_ready. intros E. destruct (negb _); [ob E; injection E as <- _; reflexivity|]. destruct (_ =? _)%N; [ob E; injection E as <- _; reflexivity|injection E as <- _; reflexivity].
Qed.
Lemma run_still m p s s' r : (forall x, m = Some x -> still (sm_run x p)) -> run_submod m p s = Ok (s', r) -> sc_phase s' = sc_phase s.
Proof.
  unfold run_submod. intros H E. destruct m as [m|]; [|injection E as <- _; reflexivity].
  ob E. destruct p0 as (s1, z). injection E as <- _. exact (H m eq_refl _ _ _ X).
Qed.
Lemma init_still s u l s' m r : (forall m p, In m l -> still (sm_run m p)) -> submod_init s u l = Ok (s', m, r) -> sc_phase s' = sc_phase s.
Proof.
  unfold submod_init. intros H E. ob E. destruct p as [name|].
  - destruct (key_eqb name SUB_NONE); [injection E as <- _ _; reflexivity|].
    destruct (find _ l) as [x|] eqn:F; [|injection E as <- _ _; reflexivity].
    ob E. destruct p as (s1, z). injection E as <- _ _. apply find_some in F as (F & _). refine (run_still _ _ _ _ _ _ X0). intros y Y. injection Y as <-. apply H, F.
  - ob E. rename p into m0. ob E. destruct p as (d1, z). destruct (z <? 0)%Z; [injection E as <- _ _; reflexivity|].
    ob E. destruct p as (s1, z1). injection E as <- _ _. change (sc_phase s) with (sc_phase (with_db s d1)).
    refine (run_still _ _ _ _ _ _ X2). intros y ->. apply H. exact (match_current_in _ _ _ X0).
Qed.
Lemma switch_still s u ready c synth a s' r : dm_switch s u ready c synth a = Ok (s', r) -> sc_phase s' = sc_phase s.
Proof.
  assert (R : forall s1 w n b s2 z, set_ready s1 u w n b = Ok (s2, z) -> sc_phase s2 = sc_phase s1) by (intros s1 w n b s2 z E; exact (set_ready_phase _ _ _ _ _ _ _ E)).
  assert (F : forall s1 f s2 z, set_by_flags s1 u f = Ok (s2, z) -> sc_phase s2 = sc_phase s1).
  { intros s1 f s2 z. unfold set_by_flags. destruct (N.testbit f BIT_OTHER); [apply R|]. destruct (N.testbit f BIT_DISK); apply R. }
  assert (I : forall z, Ok (s, z) = Ok (s', r) -> sc_phase s' = sc_phase s) by (intros z E; injection E as <- _; reflexivity).
  unfold dm_switch. intros E.
  repeat match type of E with
  | Ok (s, _) = _ => exact (I _ E)
  | set_ready _ _ _ _ _ = _ => exact (R _ _ _ _ _ _ E)
  | set_by_flags _ _ _ = _ => exact (F _ _ _ _ E)
  | obind _ _ = _ => let s1 := fresh "s1" in let z := fresh "z" in ob E; match goal with Y : set_ready _ _ _ _ _ = Ok ?p |- _ => destruct p as (s1, z);
       destruct (z <? 0)%Z; [injection E as <- _; exact (R _ _ _ _ _ _ Y)|rewrite (F _ _ _ _ E); exact (R _ _ _ _ _ _ Y)] end
  | match ?x with _ => _ end = _ => destruct x
  | (if ?x then _ else _) = _ => destruct x
  end.
Qed.
Lemma exit_still s u s' r : dm_scan_a_exit s u = Ok (s', r) -> sc_phase s' = sc_phase s.
Proof.
  unfold dm_scan_a_exit. intros E. ob E. destruct p as (s1, ready). apply get_ready_phase in X. rewrite <- X. clear X.
  ob E. destruct p as (d1, z1). destruct (z1 <? 0)%Z; [injection E as <- _; reflexivity|]. ob E. destruct p as [f|]; [|injection E as <- _; reflexivity].
  ob E. destruct p as (d2, z2). destruct (z2 <? 0)%Z; [injection E as <- _; reflexivity|]. destruct (_ || _ || _)%bool.
  - ob E. destruct p as (d3, z3). destruct (z3 <? 0)%Z; [injection E as <- _; reflexivity|]. ob E. destruct p as (d4, z4). injection E as <- _. reflexivity.
  - destruct (_ =? _)%N; [|injection E as <- _; reflexivity]. ob E. destruct p as (d3, z3). injection E as <- _. reflexivity.
Qed.
Lemma dm_still q p : (forall p, still (dp_sub q p)) -> (forall m p, In m (dp_subs q) -> still (sm_run m p)) -> still (dm_fn q p).
Proof.
  intros Hs Hl s s' r E.
  assert (Hq : forall p s s' r, sub_run q p s = Ok (s', r) -> sc_phase s' = sc_phase s) by (intros p0 t t' z X; unfold sub_run in X; ob X; destruct p1 as (s1, z1); injection X as <- _; exact (Hs _ _ _ _ X0)).
  rewrite fn_old in E. destruct p as [|[|[|[|[|[|[|[|[|[|[|[|[|[|[|p]]]]]]]]]]]]]]]; cbn [dm_old] in E; try exact (Hq _ _ _ _ E).
  - unfold dm_scan_a_init in E. ob E. destruct p as ((s1, m), z). injection E as <- _. ob X. destruct p as (d1, z1).
    destruct (z1 <? 0)%Z; [injection X as <- _ _; reflexivity|]. apply init_still in X; [exact X|exact Hl].
  - unfold dm_scan_pre in E. ob E. destruct p as ((d1, hc), fl). destruct (hc <? 0)%Z; [injection E as <- _; reflexivity|]. ob E. destruct p as [v|]; [|injection E as <- _; reflexivity].
    ob E. destruct p as (s2, ready). apply get_ready_phase in X1. cbn [sc_phase with_db] in X1. destruct (_ && _)%bool; [injection E as <- _; exact X1|].
    ob E. destruct p as (s3, z). assert (P3 : sc_phase s3 = sc_phase s).
    { rewrite <- X1. destruct (key_eqb v (B "1")); [exact (set_ready_phase _ _ _ _ _ _ _ X2)|exact (switch_still _ _ _ _ _ _ _ _ X2)]. }
    destruct (z <? 0)%Z; [injection E as <- _; exact P3|]. ob E. destruct p as (s4, z4). injection E as <- _. rewrite (Hs 1 _ _ _ X3). exact P3.
  - unfold dm_scan_next in E. ob E. destruct p as ((s1, m), z). injection E as <- _. ob X. rename p into m1. ob X. destruct p as (s2, z2). injection X as <- <- _.
    refine (run_still _ _ _ _ _ _ X1). intros y ->. destruct (match_next_in _ _ _ _ X0) as [I|I]; [apply Hl, I|discriminate].
  - ob E. destruct p as (s1, z). injection E as <- _. exact (Hq _ _ _ _ X).
  - exact (exit_still _ _ _ _ E).
  - unfold dm_remove_init in E. ob E. destruct p as ((d1, hc), fl). destruct (hc <? 0)%Z; [injection E as <- _; reflexivity|]. ob E. destruct p as ((s1, m), z). apply init_still in X0; [|exact Hl].
    destruct (z <? 0)%Z; [injection E as <- _; exact X0|]. rewrite (Hq _ _ _ _ E). exact X0.
  - ob E. destruct p as ((s1, z), l). injection E as <- _. unfold dm_action_current in X. ob X. rename p into a.
    destruct (match a with Some b => udevcomplete (dp_sems q) b | None => (0%Z, []) end) as (r0, l0). destruct (r0 <? 0)%Z; [injection X as <- _ _; reflexivity|].
    ob X. destruct p as (s2, z2). injection X as <- _ _. exact (Hs 11 _ _ _ X1).
  - injection E as <- _. reflexivity.
Qed.
