From Verif Require Import Base Res_Model Res_Spec Res_Proofs Res_Proofs2 Res_Proofs3 Res_Proofs4 Res_Proofs5 Res_Proofs6.
Local Open Scope nat_scope.

Lemma behind_split l a b : behind l a b <-> exists l1 l2, l = l1 ++ l2 /\ In a l1 /\ In b l2.
Proof.
  split; [|intros (l1 & l2 & -> & I & J); apply behind_mid; assumption]. intros (x & y & z & ->). exists (x ++ [a]), (y ++ b :: z). rewrite <- app_assoc. split; [reflexivity|]. split; apply in_or_app; right; left; reflexivity.
Qed.
Lemma behind_insert a b c x y : behind (a ++ b) x y -> behind (a ++ c :: b) x y.
Proof.
  rewrite !behind_split. intros (l1 & l2 & E & I & J). apply app_eq_app in E as (m & [(-> & ->)|(-> & ->)]).
  - exists l1, (m ++ c :: b). rewrite <- app_assoc. split; [reflexivity|]. split; [exact I|]. apply in_app_or in J as [J|J]; apply in_or_app; [left|right; right]; exact J.
  - exists (a ++ c :: m), l2. rewrite <- app_assoc. split; [reflexivity|]. split; [|exact J]. apply in_app_or in I as [I|I]; apply in_or_app; [left|right; right]; exact I.
Qed.
Lemma behind_remove r l x y : x <> r -> y <> r -> behind l x y -> behind (remove Nat.eq_dec r l) x y.
Proof. intros Nx Ny. rewrite !behind_split. intros (l1 & l2 & -> & I & J). exists (remove Nat.eq_dec r l1), (remove Nat.eq_dec r l2). rewrite remove_app. split; [reflexivity|]. rewrite !remove_in. auto. Qed.
Lemma behind_in l a b : behind l a b -> In a l /\ In b l.
Proof. intros (x & y & z & ->). split; apply in_or_app; right; [left; reflexivity|right; apply in_or_app; right; left; reflexivity]. Qed.
Lemma behind_snoc l c a b : behind (l ++ [c]) a b -> behind l a b \/ In a l /\ b = c.
Proof.
  intros (x & y & z & E). destruct z as [|d z] using rev_ind.
  - right. change (x ++ a :: y ++ [b]) with (x ++ (a :: y) ++ [b]) in E. rewrite app_assoc in E. apply app_inj_tail in E as [-> ->]. split; [apply in_or_app; right; left; reflexivity|reflexivity].
  - left. assert (E' : l ++ [c] = (x ++ a :: y ++ b :: z) ++ [d]) by (rewrite E, <- !app_assoc; cbn [app]; rewrite <- app_assoc; reflexivity). apply app_inj_tail in E' as [-> _]. exists x, y, z. reflexivity.
Qed.
Lemma ordered_behind s l a b : ordered s l -> behind l a b -> (prio_of s a <= prio_of s b)%Z.
Proof. intros O (x & y & z & ->). induction x as [|c x IH]; [|destruct O as [_ O]; exact (IH O)]. destruct O as [O _]. apply O, in_or_app. right. left. reflexivity. Qed.

Section Isolate.
Variables (hf : nat -> nat) (s : st) (r p : nat) (kr : rrec).
Hypotheses (Gd : good s) (Cn : counts hf s) (Gr : rget s r = Some kr) (Pr : r_parent kr = Some p).
Definition now (l1 l2 L : list nat) (si : st) : Prop := forall x, rget si x = option_map (fun k => relink k (if mem x l1 then Some p else r_parent k) (if x =? r then l2 else if x =? p then L else r_children k) (r_refs k)) (rget s x).
Definition lists (l1 L : list nat) : Prop := (forall x, In x L <-> In x (children_of s p) \/ In x l1) /\ (forall a b, behind (children_of s p) a b -> behind L a b)
  /\ (forall a b, behind l1 a b -> behind L a b) /\ (forall a b, In a (children_of s p) -> In b l1 -> prio_of s a = prio_of s b -> behind L a b).
Lemma rp : r <> p.
Proof. intros E. apply (not_self _ (g_rank _ Gd) r). exists kr. split; congruence. Qed.
Lemma reparent_lemma : forall l2 l1 L si, r_children kr = l1 ++ l2 -> good si -> counts hf si -> length si = length s -> now l1 l2 L si -> lists l1 L ->
  exists s' L', reparent si (Some p) l2 = Ok s' /\ good s' /\ counts hf s' /\ length s' = length s /\ now (r_children kr) [] L' s' /\ lists (r_children kr) L'.
Proof.
  pose proof (g_agree _ Gd) as (A1 & A2 & A3). pose proof rp as Nrp. assert (PR : parent_of s r p) by (exists kr; auto).
  induction l2 as [|c l2 IH]; intros l1 L si E Gi Ci Li Ni Qi.
  { rewrite app_nil_r in E. rewrite E. exists si, L. split; [reflexivity|]. repeat (split; [assumption|]). assumption. }
  cbn [reparent].
  assert (Pc : parent_of s c r) by (apply A1; exists kr; split; [exact Gr|rewrite E; apply in_or_app; right; left; reflexivity]).
  destruct Pc as (kc & Gc & Ec). assert (Pc : parent_of s c r) by (exists kc; auto).
  assert (ND : NoDup (l1 ++ c :: l2)) by (rewrite <- E, <- (children_get _ _ _ Gr); apply A3).
  assert (N1 : ~ In c l1) by (apply nodup_app_inv in ND as (_ & _ & D); intros C; apply (D c C); left; reflexivity).
  assert (N2 : ~ In c l2) by (apply nodup_app_inv in ND as (_ & D & _); inversion D; assumption).
  assert (Ncr : c <> r) by (intros ->; exact (not_self _ (g_rank _ Gd) r Pc)).
  assert (Ncp : c <> p) by (intros ->; apply (acyclic _ (g_rank _ Gd) _ _ Pc); eapply Ab_up; [exact PR|constructor]).
  assert (Nr1 : ~ In r l1). { intros I. apply (not_self _ (g_rank _ Gd) r). apply A1. exists kr. split; [exact Gr|rewrite E; apply in_or_app; left; exact I]. }
  assert (Np1 : ~ In p l1). { intros I. apply (acyclic _ (g_rank _ Gd) r p PR). eapply Ab_up; [apply A1; exists kr; split; [exact Gr|rewrite E; apply in_or_app; left; exact I]|constructor]. }
  assert (Nl : forall x, In x l1 -> x <> r) by (intros x I ->; contradiction).
  (* the records in the state so far *)
  pose proof (Ni c) as Gci. rewrite Gc in Gci. cbn [option_map] in Gci. destruct (mem_spec c l1) as [|_]; [contradiction|]. destruct (Nat.eqb_spec c r) as [|_]; [contradiction|]. destruct (Nat.eqb_spec c p) as [|_]; [contradiction|]. rewrite Ec in Gci.
  set (kci := relink kc (Some r) (r_children kc) (r_refs kc)) in Gci.
  pose proof (Ni r) as Gri. rewrite Gr in Gri. cbn [option_map] in Gri. rewrite Nat.eqb_refl in Gri. destruct (mem_spec r l1) as [|_]; [contradiction|]. rewrite Pr in Gri.
  destruct (remove_lemma si c kci r Gi Gci eq_refl) as (kr' & s1 & Gr' & _ & U1 & L1 & G1 & H1 & Ab1). rewrite U1. cbn [obind]. rewrite Gr' in Gri. injection Gri as Ekr'.
  pose proof (remove_counts hf si s1 c kci r kr' _ Ci Gci eq_refl Gr' Ncr H1) as C1.
  assert (Rm : remove Nat.eq_dec c (r_children kr') = l2). { rewrite Ekr'. cbn [relink r_children remove]. destruct (Nat.eq_dec c c) as [_|]; [|contradiction]. apply notin_remove, N2. }
  rewrite Rm in H1. set (kc1 := set_refs (set_parent kci None) (dec (r_refs kci))) in *.
  assert (Gc1 : rget s1 c = Some kc1) by (rewrite H1, Nat.eqb_refl; reflexivity).
  pose proof (A2 _ _ PR) as Lp. apply live_get in Lp as (kp & Gp). pose proof (Ni p) as Gpi. rewrite Gp in Gpi. cbn [option_map] in Gpi. destruct (mem_spec p l1) as [|_]; [contradiction|]. destruct (Nat.eqb_spec p r) as [|_]; [congruence|]. rewrite Nat.eqb_refl in Gpi.
  assert (Gp1 : rget s1 p = Some (relink kp (r_parent kp) L (r_refs kp))). { rewrite H1. destruct (Nat.eqb_spec p c) as [|_]; [congruence|]. destruct (Nat.eqb_spec p r) as [|_]; [congruence|]. exact Gpi. }
  assert (NA : ~ above s1 c p).
  { intros A. apply Ab1 in A. apply (acyclic _ (g_rank _ Gi) c r); [exists kci; auto|]. eapply Ab_up; [|exact A]. eexists. split; [exact Gr'|]. rewrite Ekr'. reflexivity. }
  destruct (add_lemma s1 c kc1 p G1 Gc1 eq_refl ltac:(unfold live; rewrite Gp1; discriminate) NA) as (kp1 & s2 & a & b & Gp1' & _ & Ekp & Ha & Hb & U2 & L2 & G2 & H2). rewrite U2. cbn [obind].
  pose proof (add_counts hf s1 s2 c kc1 p kp1 _ C1 Gc1 eq_refl Gp1' Ncp H2) as C2. rewrite Gp1 in Gp1'. injection Gp1' as <-. cbn [relink r_children] in Ekp.
  assert (Pri : forall x, prio_of s1 x = prio_of s x).
  { intros x. unfold prio_of. rewrite H1. destruct (Nat.eqb_spec x c) as [->|_]; [rewrite Gc; reflexivity|]. destruct (Nat.eqb_spec x r) as [->|_]; [rewrite Gr, Ekr'; reflexivity|]. rewrite Ni. destruct (rget s x); reflexivity. }
  assert (Pk : r_prio kc1 = prio_of s c) by (unfold prio_of; rewrite Gc; reflexivity).
  destruct (Cn c kc Gc) as [Bc Rc]. assert (Ic : inc (dec (r_refs kc)) = r_refs kc). { apply inc_dec; rewrite Rc; unfold pa; rewrite Ec; pose proof (un_le kc); lia. }
  apply (IH (l1 ++ [c]) (a ++ c :: b) s2); [rewrite <- app_assoc; exact E|exact G2|exact C2|congruence| |].
  - intros x. rewrite H2, H1, Ni. rewrite mem_app. destruct (Nat.eqb_spec x c) as [->|Nxc].
    + rewrite Gc. cbn [option_map]. destruct (mem_spec c [c]) as [_|C]; [|exfalso; apply C; left; reflexivity]. rewrite orb_true_r. destruct (Nat.eqb_spec c r) as [|_]; [contradiction|]. destruct (Nat.eqb_spec c p) as [|_]; [contradiction|]. unfold kc1, kci, set_refs, set_parent, relink. cbn. rewrite Ic. reflexivity.
    + destruct (mem_spec x [c]) as [[C|[]]|_]; [congruence|]. rewrite orb_false_r. destruct (Nat.eqb_spec x p) as [->|Nxp].
      * rewrite Gp. cbn [option_map]. destruct (Nat.eqb_spec p r) as [|_]; [congruence|]. destruct (mem_spec p l1) as [|_]; [contradiction|]. reflexivity.
      * destruct (Nat.eqb_spec x r) as [->|Nxr]; [|reflexivity]. rewrite Gr. cbn [option_map]. destruct (mem_spec r l1) as [|_]; [contradiction|]. rewrite Ekr', Pr. reflexivity.
  - destruct Qi as (Q1 & Q2 & Q3 & Q4). rewrite Ekp in Q1, Q2, Q3, Q4.
    assert (Be : forall x, In x (a ++ b) -> (prio_of s x <= prio_of s c)%Z -> behind (a ++ c :: b) x c).
    { intros x I Hx. apply in_app_or in I as [I|I]; [apply behind_mid; [exact I|left; reflexivity]|]. specialize (Hb x I). rewrite Pri, Pk in Hb. lia. }
    split; [|split; [|split]].
    + intros x. rewrite in_app_iff. cbn [In]. rewrite (in_app_iff l1). cbn [In]. specialize (Q1 x). rewrite in_app_iff in Q1. tauto.
    + intros x y B. apply behind_insert, Q2, B.
    + intros x y B. apply behind_snoc in B as [B|[I ->]]; [apply behind_insert, Q3, B|]. apply Be; [apply Q1; right; exact I|]. apply (ordered_behind s (children_of s r)); [apply (g_sorted _ Gd)|]. rewrite (children_get _ _ _ Gr), E. apply behind_mid; [exact I|left; reflexivity].
    + intros x y I J Eq. apply in_app_or in J as [J|[<-|[]]]; [apply behind_insert, Q4; assumption|]. apply Be; [apply Q1; left; exact I|lia].
Qed.
End Isolate.

Lemma do_isolate_ok h s r flags : inv h s -> may h s (Isolate r flags) -> exists s' tr z, call s (Isolate r flags) = Ok (s', tr, z) /\ inv (Isolate r flags :: h) s' /\ effect h s (Isolate r flags) s' tr z.
Proof.
  intros V L. cbn [may] in L. apply live_get in L as (k & G). pose proof (v_good _ _ V) as Gd. cbn [call]. unfold isolate. rewrite (the_get _ _ _ G). cbn [obind].
  destruct (r_loop k || match r_parent k with None => true | Some _ => false end || N.testbit (r_flags k) BIT_NO_ISOLATION) eqn:Eb.
  { eexists _, _, _. split; [reflexivity|]. split; [destruct V; constructor; assumption|]. cbn [effect]. split; [reflexivity|]. split; [reflexivity|]. intros k' G'. assert (k' = k) by congruence. subst k'. split; [auto|]. intros p E1 E2 E3. rewrite E1, E2, E3 in Eb. discriminate Eb. }
  apply orb_false_iff in Eb as [Eb E3]. apply orb_false_iff in Eb as [E1 E2]. destruct (r_parent k) as [p|] eqn:P; [clear E2|discriminate E2]. destruct (v_counts _ _ V r k G) as [B Er]. assert (Pos : (0 < r_refs k)%N) by (rewrite Er; unfold pa; rewrite P; lia).
  destruct (N.testbit flags BIT_SUBTREE) eqn:Fs.
  - destruct (remove_lemma _ _ _ _ Gd G P) as (kp & s1 & Gp & Nrp & U & L1 & G1 & H1 & _). rewrite U. cbn [obind]. eexists _, _, _. split; [reflexivity|]. split.
    + constructor; [exact G1|apply (counts_other (held h)); [reflexivity|]; eapply remove_counts; [exact (v_counts _ _ V)|exact G|exact P|exact Gp|exact Nrp|exact H1]|]. intros x Hx. apply (v_new _ _ V). lia.
    + cbn [effect]. split; [reflexivity|]. split; [exact L1|]. intros k' G'. assert (k' = k) by congruence. subst k'. split; [intros [H|[H|H]]; congruence|]. intros p' _ Ep _. assert (p' = p) by congruence. subst p'. split; [reflexivity|]. split; [|intros F; congruence]. intros _ x. rewrite H1. destruct (Nat.eqb_spec x r) as [->|]; [rewrite G; cbn [option_map]; rewrite dec_ok by exact Pos; reflexivity|]. destruct (Nat.eqb_spec x p) as [->|]; [rewrite Gp; reflexivity|]. destruct (rget s x); reflexivity.
  - assert (N0 : now s r p [] (r_children k) (children_of s p) s).
    { intros x. destruct (rget s x) as [kx|] eqn:Gx; [|reflexivity]. cbn [option_map]. f_equal. destruct (mem_spec x []) as [[]|_]. assert (Ch : (if x =? r then r_children k else if x =? p then children_of s p else r_children kx) = r_children kx). { destruct (Nat.eqb_spec x r) as [->|]; [congruence|]. destruct (Nat.eqb_spec x p) as [->|]; [apply children_get, Gx|reflexivity]. } rewrite Ch. destruct kx; reflexivity. }
    assert (Q0 : lists s p [] (children_of s p)). { split; [|split; [|split]]; [intros x; cbn [In]; tauto|auto|intros a b (x & y & z & E); destruct x; discriminate E|intros a b _ []]. }
    destruct (reparent_lemma (held h) s r p k Gd (v_counts _ _ V) G P (r_children k) [] (children_of s p) s eq_refl Gd (v_counts _ _ V) eq_refl N0 Q0) as (s1 & L1 & U1 & G1 & C1 & Ln1 & N1 & Q1). rewrite U1. cbn [obind].
    pose proof (rp s r p k Gd G P) as Nrp. assert (PR : parent_of s r p) by (exists k; auto). pose proof (g_agree _ Gd) as (A1 & A2 & A3).
    assert (Chr : forall x, In x (r_children k) <-> parent_of s x r) by (intros x; rewrite <- A1; split; [intros I; exists k; auto|intros (k' & G' & I); congruence]).
    assert (Nrc : ~ In r (r_children k)) by (rewrite Chr; apply (not_self _ (g_rank _ Gd))).
    pose proof (N1 r) as Gr1. rewrite G in Gr1. cbn [option_map] in Gr1. rewrite Nat.eqb_refl in Gr1. destruct (mem_spec r (r_children k)) as [|_]; [contradiction|]. rewrite P in Gr1. set (k1 := relink k (Some p) [] (r_refs k)) in Gr1.
    destruct (remove_lemma s1 r k1 p G1 Gr1 eq_refl) as (kp1 & s2 & Gp1 & _ & U2 & Ln2 & G2 & H2 & _). rewrite U2. cbn [obind]. eexists _, _, _. split; [reflexivity|].
    pose proof (A2 _ _ PR) as Lp. apply live_get in Lp as (kp & Gp). pose proof (N1 p) as Gp1'. rewrite Gp in Gp1'. cbn [option_map] in Gp1'. rewrite Nat.eqb_refl in Gp1'. destruct (Nat.eqb_spec p r) as [|_]; [congruence|]. rewrite Gp1 in Gp1'. injection Gp1' as Ekp1.
    assert (Npc : ~ In p (r_children k)). { rewrite Chr. intros C. apply (acyclic _ (g_rank _ Gd) _ _ PR). eapply Ab_up; [exact C|constructor]. }
    destruct (mem_spec p (r_children k)) as [|_]; [contradiction|].
    split.
    + constructor; [exact G2|apply (counts_other (held h)); [reflexivity|]; eapply remove_counts; [exact C1|exact Gr1|reflexivity|exact Gp1|exact Nrp|exact H2]|]. intros x Hx. apply (v_new _ _ V). lia.
    + cbn [effect]. split; [reflexivity|]. split; [congruence|]. intros k' G'. assert (k' = k) by congruence. subst k'. split; [intros [H|[H|H]]; congruence|]. intros p' _ Ep _. assert (p' = p) by congruence. subst p'. split; [reflexivity|]. split; [intros F; congruence|]. intros _.
      exists (remove Nat.eq_dec r L1). destruct Q1 as (Q1 & Q2 & Q3 & Q4).
      assert (Cp : children_of s2 p = remove Nat.eq_dec r L1). { unfold children_of. rewrite H2. destruct (Nat.eqb_spec p r) as [|_]; [congruence|]. rewrite Nat.eqb_refl. rewrite Ekp1. reflexivity. }
      assert (Pri : forall x, prio_of s2 x = prio_of s x). { intros x. unfold prio_of. rewrite H2. destruct (Nat.eqb_spec x r) as [->|_]; [rewrite G; reflexivity|]. destruct (Nat.eqb_spec x p) as [->|_]; [rewrite Gp, Ekp1; reflexivity|]. rewrite N1. destruct (rget s x); reflexivity. }
      assert (Nr : forall x, In x (children_of s r) -> x <> r) by (intros x I ->; rewrite (children_get _ _ _ G) in I; contradiction).
      split; [|split; [|split; [|split; [|split; [|split]]]]].
      * intros x. rewrite H2. destruct (Nat.eqb_spec x r) as [->|Nxr]; [rewrite G; cbn [option_map]; unfold k1, set_refs, set_parent, relink; cbn; rewrite dec_ok by exact Pos; reflexivity|].
        destruct (Nat.eqb_spec x p) as [->|Nxp].
        -- rewrite Gp, Ekp1. cbn [option_map]. unfold relink, set_children. cbn. f_equal. f_equal. destruct (r_parent kp) as [q|] eqn:Epp; [|reflexivity]. f_equal. destruct (Nat.eqb_spec q r) as [->|]; [|reflexivity]. exfalso. apply (acyclic _ (g_rank _ Gd) _ _ PR). eapply Ab_up; [exists kp; eauto|constructor].
        -- rewrite N1. destruct (rget s x) as [kx|] eqn:Gx; [|reflexivity]. cbn [option_map]. f_equal. destruct (Nat.eqb_spec x r) as [|_]; [contradiction|]. destruct (Nat.eqb_spec x p) as [|_]; [contradiction|]. f_equal. destruct (mem_spec x (r_children k)) as [I|I].
           ++ apply Chr in I as (k' & Gk & Ek). assert (k' = kx) by congruence. subst k'. rewrite Ek, Nat.eqb_refl. reflexivity.
           ++ destruct (r_parent kx) as [q|] eqn:Eq; [|reflexivity]. destruct (Nat.eqb_spec q r) as [->|]; [|reflexivity]. exfalso. apply I, Chr. exists kx. auto.
      * intros c. rewrite remove_in, Q1, !child_in, (children_get _ _ _ G). tauto.
      * rewrite <- Cp. apply (proj2 (proj2 (g_agree _ G2))).
      * pose proof (g_sorted _ G2 p) as O. rewrite Cp in O. revert O. apply ordered_ext. intros x _. apply Pri.
      * intros a b Na Nb Bab. apply behind_remove; auto.
      * intros a b Bab. destruct (behind_in _ _ _ Bab) as [Ia Ib]. apply behind_remove; [apply Nr, Ia|apply Nr, Ib|]. apply Q3. rewrite <- (children_get _ _ _ G). exact Bab.
      * intros a b Na Ia Ib Eq. apply behind_remove; [exact Na|apply Nr, Ib|]. apply Q4; [exact Ia|rewrite <- (children_get _ _ _ G); exact Ib|exact Eq].
Qed.

Theorem call_ok h s o : inv h s -> may h s o -> exists s' tr z, call s o = Ok (s', tr, z) /\ inv (o :: h) s' /\ effect h s o s' tr z.
Proof.
  intros V M. destruct o; [apply do_create_ok|apply do_created_ok|apply do_fail_ok|apply do_ref_ok|apply do_unref_ok|apply do_prio_ok|apply do_add_ok|apply do_isolate_ok]; assumption.
Qed.
Lemma start_good : good [].
Proof.
  assert (E : forall x, rget [] x = None) by (intros [|x]; reflexivity). constructor.
  - split; [|split].
    + intros p c. split; intros (k & G & _); rewrite E in G; discriminate G.
    + intros c p (k & G & _). rewrite E in G. discriminate G.
    + intros p. unfold children_of. rewrite E. constructor.
  - intros x. constructor. intros c (k & G & _). rewrite E in G. discriminate G.
  - intros p. unfold children_of. rewrite E. exact I.
Qed.
Theorem reached_inv h s : reached h s -> inv h s.
Proof.
  induction 1 as [|h s o s' tr z _ IH M C]; [constructor; [exact start_good|intros [|x] k G; discriminate G|reflexivity]|]. destruct (call_ok h s o IH M) as (s1 & tr1 & z1 & E & V & _). congruence.
Qed.
