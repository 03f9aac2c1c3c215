From Verif Require Import Base Res_Model Res_Spec Res_Proofs Res_Proofs2 Res_Proofs3 Res_Proofs4 Res_Proofs5.
Local Open Scope nat_scope.

(* counts of references when links change *)
Lemma add_counts hf s s' r k p kp l : counts hf s -> rget s r = Some k -> r_parent k = None -> rget s p = Some kp -> r <> p ->
  (forall x, rget s' x = if x =? r then Some (set_refs (set_parent k (Some p)) (inc (r_refs k))) else if x =? p then Some (set_children kp l) else rget s x) -> counts hf s'.
Proof.
  intros C G P Gp N H x kx. rewrite H. destruct (Nat.eqb_spec x r) as [->|Nr]; [|destruct (Nat.eqb_spec x p) as [->|Np]]; intros Gx.
  - injection Gx as <-. destruct (C r k G) as [B E]. split; [exact B|]. unfold pa, un. cbn [set_refs set_parent r_refs r_parent r_init]. fold (un k). pose proof (un_le k). unfold pa in E. rewrite P in E. rewrite inc_ok; rewrite E; clear - B H0; lia.
  - injection Gx as <-. exact (C p kp Gp).
  - exact (C x kx Gx).
Qed.
Lemma remove_counts hf s s' r k p kp l : counts hf s -> rget s r = Some k -> r_parent k = Some p -> rget s p = Some kp -> r <> p ->
  (forall x, rget s' x = if x =? r then Some (set_refs (set_parent k None) (dec (r_refs k))) else if x =? p then Some (set_children kp l) else rget s x) -> counts hf s'.
Proof.
  intros C G P Gp N H x kx. rewrite H. destruct (Nat.eqb_spec x r) as [->|Nr]; [|destruct (Nat.eqb_spec x p) as [->|Np]]; intros Gx.
  - injection Gx as <-. destruct (C r k G) as [B E]. split; [exact B|]. unfold pa, un. cbn [set_refs set_parent r_refs r_parent r_init]. fold (un k). unfold pa in E. rewrite P in E. rewrite dec_ok; rewrite E; clear - B; lia.
  - injection Gx as <-. exact (C p kp Gp).
  - exact (C x kx Gx).
Qed.

(* A new resource *)
Lemma rget_app s k x : rget (s ++ [Some k]) x = if x =? length s then Some k else rget s x.
Proof.
  unfold rget. destruct (Nat.eqb_spec x (length s)) as [->|N]; [rewrite app_nth2, Nat.sub_diag by lia; reflexivity|]. destruct (Nat.lt_ge_cases x (length s)) as [L|L]; [apply app_nth1, L|]. rewrite (nth_overflow s) by exact L. apply nth_overflow. rewrite app_length. cbn [length]. lia.
Qed.
Lemma not_yet s x : length s <= x -> rget s x = None.
Proof. intros L. unfold rget. apply nth_overflow, L. Qed.
Lemma new_good s k : good s -> r_parent k = None -> r_children k = [] -> good (s ++ [Some k]).
Proof.
  intros [(A1 & A2 & A3) R O] P C. set (r := length s). set (s1 := s ++ [Some k]).
  assert (Pe : forall c p, parent_of s1 c p <-> parent_of s c p).
  { intros c p. unfold parent_of, s1. rewrite rget_app. destruct (Nat.eqb_spec c (length s)) as [->|N]; [|tauto]. rewrite (not_yet s (length s)) by lia. split; intros (k' & E & H); [injection E as <-; congruence|discriminate E]. }
  assert (Ce : forall p, children_of s1 p = children_of s p).
  { intros p. unfold children_of, s1. rewrite rget_app. destruct (Nat.eqb_spec p (length s)) as [->|N]; [|reflexivity]. rewrite (not_yet s (length s)) by lia. exact C. }
  constructor.
  - split; [|split].
    + intros p c. rewrite child_in, Ce, <- child_in, A1, Pe. tauto.
    + intros c p H. apply Pe in H. apply A2 in H. unfold live, s1 in *. rewrite rget_app. destruct (p =? length s); [discriminate|exact H].
    + intros p. rewrite Ce. apply A3.
  - apply (ranked_sub s); [|exact R]. intros c p H. apply Pe, H.
  - intros p. rewrite Ce. specialize (O p). revert O. apply ordered_ext. intros x I. unfold prio_of, s1. rewrite rget_app. destruct (Nat.eqb_spec x (length s)) as [->|N]; [|reflexivity]. exfalso. apply child_in in I. apply A1 in I. destruct I as (k' & G & _). apply rget_lt in G. lia.
Qed.
Lemma st_set_same s r k : rget s r = Some k -> rset s r (Some k) = s.
Proof. intros G. apply st_ext; [apply rset_length; eapply rget_lt, G|]. intros x. rewrite rget_rset by (eapply rget_lt, G). destruct (Nat.eqb_spec x r) as [->|]; congruence. Qed.
Lemma do_create_ok h s p type short part loop flags prio : inv h s -> may h s (CreateBegin p type short part loop flags prio) ->
  exists s' tr z, call s (CreateBegin p type short part loop flags prio) = Ok (s', tr, z) /\ inv (CreateBegin p type short part loop flags prio :: h) s' /\ effect h s (CreateBegin p type short part loop flags prio) s' tr z.
Proof.
  intros V M. cbn [may] in M. cbn [call]. unfold create_begin. set (k := Rrec None [] type short (make_id short part) flags prio 1 false loop). set (s1 := s ++ [Some k]). set (r := length s).
  assert (G1 : good s1) by (apply new_good; [exact (v_good _ _ V)|reflexivity|reflexivity]).
  assert (Gr : rget s1 r = Some k) by (unfold s1; rewrite rget_app; unfold r; rewrite Nat.eqb_refl; reflexivity).
  assert (Old : forall x, x < r -> rget s1 x = rget s x) by (intros x L; unfold s1; rewrite rget_app; destruct (Nat.eqb_spec x (length s)); [unfold r in L; lia|reflexivity]).
  assert (Lv : forall x, live s x -> live s1 x /\ x < r) by (intros x L; apply live_get in L as (kx & Gx); pose proof (rget_lt _ _ _ Gx) as Lx; split; [unfold live; rewrite Old by exact Lx; congruence|exact Lx]).
  assert (C1 : counts (held h) s1).
  { intros x kx. unfold s1. rewrite rget_app. destruct (Nat.eqb_spec x (length s)) as [->|N]; intros Gx; [|exact (v_counts _ _ V x kx Gx)]. injection Gx as <-. rewrite (v_new _ _ V (length s) (le_n _)). split; [lia|reflexivity]. }
  assert (L1 : length s1 = S r) by (unfold s1; rewrite app_length; cbn [length]; unfold r; lia).
  destruct p as [p|].
  - destruct (Lv p M) as [Lp Lt].
    assert (NA : ~ above s1 r p). { intros A. apply above_next in A as [A|(c & P & _)]; [unfold r in *; lia|]. destruct P as (kc & Gc & Ec). unfold s1 in Gc. rewrite rget_app in Gc. destruct (Nat.eqb_spec c (length s)) as [->|N]; [injection Gc as <-; discriminate Ec|]. destruct (g_agree _ (v_good _ _ V)) as (_ & A2 & _). assert (Lr : live s r) by (apply (A2 c r); exists kc; auto). unfold live in Lr. rewrite not_yet in Lr by (unfold r; lia). contradiction. }
    destruct (add_lemma s1 r k p G1 Gr eq_refl Lp NA) as (kp & s' & a & b & Gp & Nrp & Ekp & Ha & Hb & U & L' & G' & H). rewrite U. cbn [obind]. eexists _, _, _. split; [reflexivity|]. split.
    + constructor; [exact G'|apply (counts_other (held h)); [reflexivity|]; eapply add_counts; [exact C1|exact Gr|reflexivity|exact Gp|exact Nrp|exact H]|]. intros x Hx. rewrite L', L1 in Hx. apply (v_new _ _ V). unfold r in Hx. lia.
    + cbn [effect]. fold r. split; [reflexivity|]. split; [reflexivity|]. split; [congruence|]. split; [rewrite H, Nat.eqb_refl; reflexivity|]. rewrite (Old p Lt) in Gp. exists (a ++ r :: b). split.
      * intros x Lx. rewrite H. destruct (Nat.eqb_spec x r) as [->|_]; [lia|]. rewrite (Old x Lx). destruct (Nat.eqb_spec x p) as [->|Np]; [rewrite Gp; reflexivity|destruct (rget s x); reflexivity].
      * exists a, b. split; [rewrite (children_get _ _ _ Gp); exact Ekp|]. split; [reflexivity|].
        assert (Pr : prio_of s' r = prio) by (unfold prio_of; rewrite H, Nat.eqb_refl; reflexivity). rewrite Pr.
        assert (Pc : forall c, prio_of s' c = prio_of s1 c). { intros c. unfold prio_of. rewrite H. destruct (Nat.eqb_spec c r) as [->|_]; [rewrite Gr; reflexivity|]. destruct (Nat.eqb_spec c p) as [->|_]; [|reflexivity]. rewrite (Old p Lt), Gp. reflexivity. }
        split; intros c Ic; rewrite Pc; auto.
  - unfold add_to_parent. rewrite (the_get _ _ _ Gr). cbn [obind]. rewrite (st_set_same s1 r (set_parent k None) Gr). cbn [obind]. eexists _, _, _. split; [reflexivity|]. split.
    + constructor; [exact G1|apply (counts_other (held h)); [reflexivity|exact C1]|]. intros x Hx. rewrite L1 in Hx. apply (v_new _ _ V). unfold r in Hx. lia.
    + cbn [effect]. fold r. split; [reflexivity|]. split; [reflexivity|]. split; [exact L1|]. split; [exact Gr|]. exists []. split; [|exact I]. intros x Lx. rewrite (Old x Lx). destruct (rget s x); reflexivity.
Qed.
Lemma set_ok h o s r k k' : inv h s -> (forall x, x <> r -> held (o :: h) x = held h x) -> (length s <= r -> held (o :: h) r = 0) -> rget s r = Some k -> r_parent k = r_parent k' -> r_children k = r_children k' -> r_prio k = r_prio k' ->
  (N.of_nat (held (o :: h) r) <= 4294967293)%N -> r_refs k' = (N.of_nat (held (o :: h) r) + pa k' + un k')%N -> inv (o :: h) (rset s r (Some k')).
Proof.
  intros V He Hn G E1 E2 E3 B E. assert (Lr : r < length s) by (eapply rget_lt, G). constructor.
  - eapply same_good; [|exact (v_good _ _ V)]. apply (same_set s r k); assumption.
  - intros x kx. rewrite rget_rset by exact Lr. destruct (Nat.eqb_spec x r) as [->|N]; intros Gx; [injection Gx as <-; auto|]. rewrite He by exact N. exact (v_counts _ _ V x kx Gx).
  - intros x Hx. rewrite rset_length in Hx by exact Lr. destruct (Nat.eq_dec x r) as [->|N]; [auto|]. rewrite He by exact N. apply (v_new _ _ V x Hx).
Qed.
Lemma do_created_ok h s r : inv h s -> may h s (CreateOk r) -> exists s' tr z, call s (CreateOk r) = Ok (s', tr, z) /\ inv (CreateOk r :: h) s' /\ effect h s (CreateOk r) s' tr z.
Proof.
  intros V (k & G & Ei). destruct (v_counts _ _ V r k G) as [B E]. cbn [call]. unfold create_ok. rewrite (the_get _ _ _ G). cbn [obind]. eexists _, _, _. split; [reflexivity|]. unfold un in E. rewrite Ei in E. assert (Lr : r < length s) by (eapply rget_lt, G). assert (Ed : dec (r_refs k) = (r_refs k - 1)%N) by (apply dec_ok; rewrite E; lia). split.
  - apply (set_ok h (CreateOk r) s r k); auto; [intros L; lia|]. unfold pa, un. cbn [set_init set_refs r_refs r_parent r_init held]. fold (pa k). rewrite Ed, E. clear. lia.
  - cbn [effect]. split; [reflexivity|]. split; [apply rset_length, Lr|]. intros x. rewrite rget_rset by exact Lr. destruct (Nat.eqb_spec x r) as [->|]; [rewrite G; cbn [option_map]; unfold set_init, set_refs; cbn; rewrite Ed; reflexivity|]. destruct (rget s x); reflexivity.
Qed.
Lemma do_ref_ok h s r : inv h s -> may h s (Ref r) -> exists s' tr z, call s (Ref r) = Ok (s', tr, z) /\ inv (Ref r :: h) s' /\ effect h s (Ref r) s' tr z.
Proof.
  intros V [L B]. apply live_get in L as (k & G). destruct (v_counts _ _ V r k G) as [_ E]. cbn [call]. unfold ref. rewrite (the_get _ _ _ G). cbn [obind]. eexists _, _, _. split; [reflexivity|]. assert (Lr : r < length s) by (eapply rget_lt, G). assert (Ed : inc (r_refs k) = (r_refs k + 1)%N) by (apply inc_ok; rewrite E; pose proof (pa_le k); pose proof (un_le k); lia). split.
  - apply (set_ok h (Ref r) s r k); auto; [intros x N; cbn [held]; destruct (Nat.eqb_spec r x); [congruence|reflexivity]|lia| |]; cbn [held]; rewrite Nat.eqb_refl; [clear - B; lia|]. unfold pa, un. cbn [set_refs r_refs r_parent r_init]. fold (pa k) (un k). rewrite Ed, E. clear. lia.
  - cbn [effect]. split; [reflexivity|]. split; [apply rset_length, Lr|]. intros x. rewrite rget_rset by exact Lr. destruct (Nat.eqb_spec x r) as [->|]; [rewrite G; cbn [option_map]; rewrite Ed; reflexivity|]. destruct (rget s x); reflexivity.
Qed.
Lemma inc_dec n : (0 < n)%N -> (n <= 4294967295)%N -> inc (dec n) = n.
Proof. intros H1 H2. rewrite dec_ok by exact H1. rewrite inc_ok; lia. Qed.
Lemma do_prio_ok h s r prio : inv h s -> may h s (SetPrio r prio) -> exists s' tr z, call s (SetPrio r prio) = Ok (s', tr, z) /\ inv (SetPrio r prio :: h) s' /\ effect h s (SetPrio r prio) s' tr z.
Proof.
  intros V L. cbn [may] in L. apply live_get in L as (k & G). cbn [call]. unfold set_prio. rewrite (the_get _ _ _ G). cbn [obind]. assert (Pk : prio_of s r = r_prio k) by (unfold prio_of; rewrite G; reflexivity).
  assert (Triv : inv (SetPrio r prio :: h) s) by (destruct V; constructor; assumption).
  destruct (Z.eqb_spec prio (r_prio k)) as [Ep|Np].
  { eexists _, _, _. split; [reflexivity|]. split; [exact Triv|]. cbn [effect]. split; [reflexivity|]. split; [reflexivity|]. split; [reflexivity|]. intros p _ H. congruence. }
  destruct (r_parent k) as [p|] eqn:P.
  2:{ eexists _, _, _. split; [reflexivity|]. split; [exact Triv|]. cbn [effect]. split; [reflexivity|]. split; [reflexivity|]. split; [reflexivity|]. intros p (k' & G' & H) _. congruence. }
  destruct (remove_lemma _ _ _ _ (v_good _ _ V) G P) as (kp & s1 & Gp & Nrp & U & L1 & G1 & H1 & Ab). rewrite U. cbn [obind].
  pose proof (remove_counts (held h) s s1 r k p kp _ (v_counts _ _ V) G P Gp Nrp H1) as C1.
  set (k1 := set_refs (set_parent k None) (dec (r_refs k))) in *. assert (Gr : rget s1 r = Some k1) by (rewrite H1, Nat.eqb_refl; reflexivity). rewrite (the_get _ _ _ Gr). cbn [obind].
  assert (Lr : r < length s) by (eapply rget_lt, G). assert (Lr1 : r < length s1) by lia.
  set (k2 := set_priority k1 prio). set (s2 := rset s1 r (Some k2)).
  assert (H2 : forall x, rget s2 x = if x =? r then Some k2 else rget s1 x) by (intros x; unfold s2; apply rget_rset, Lr1).
  assert (G2 : good s2).
  { destruct G1 as [(A1 & A2 & A3) R O]. assert (Pe : forall c q, parent_of s2 c q <-> parent_of s1 c q) by (intros c q; unfold parent_of; rewrite H2; destruct (Nat.eqb_spec c r) as [->|]; [|tauto]; rewrite Gr; split; intros (k' & E & H); injection E as <-; eexists; split; try reflexivity; exact H).
    assert (Ce : forall q, children_of s2 q = children_of s1 q) by (intros q; unfold children_of; rewrite H2; destruct (Nat.eqb_spec q r) as [->|]; [rewrite Gr|]; reflexivity).
    assert (NoP : forall q, ~ parent_of s1 r q) by (intros q (k' & E & H); rewrite Gr in E; injection E as <-; discriminate H).
    constructor; [split; [|split]| |].
    - intros q c. rewrite child_in, Ce, <- child_in, A1, Pe. tauto.
    - intros c q H. apply Pe, A2 in H. unfold live in *. rewrite H2. destruct (q =? r); [discriminate|exact H].
    - intros q. rewrite Ce. apply A3.
    - apply (ranked_sub s1); [|exact R]. intros c q H. apply Pe, H.
    - intros q. rewrite Ce. specialize (O q). revert O. apply ordered_ext. intros x I. unfold prio_of. rewrite H2. destruct (Nat.eqb_spec x r) as [->|]; [|reflexivity]. exfalso. apply (NoP q). apply A1, child_in, I. }
  assert (C2 : counts (held h) s2).
  { intros x kx. rewrite H2. destruct (Nat.eqb_spec x r) as [->|]; intros Gx; [|exact (C1 x kx Gx)]. injection Gx as <-. exact (C1 r k1 Gr). }
  assert (Gr2 : rget s2 r = Some k2) by (rewrite H2, Nat.eqb_refl; reflexivity).
  assert (Gp2 : rget s2 p = Some (set_children kp (remove Nat.eq_dec r (r_children kp)))). { rewrite H2, H1. destruct (Nat.eqb_spec p r); [congruence|]. rewrite Nat.eqb_refl. reflexivity. }
  assert (NA : ~ above s2 r p).
  { intros A. apply (acyclic _ (g_rank _ (v_good _ _ V)) r p); [exists k; auto|]. apply Ab. clear - A H2 Gr. induction A as [|c q P _ IH]; [constructor|]. eapply Ab_up; [|exact IH]. destruct P as (k' & G' & E). rewrite H2 in G'. destruct (Nat.eqb_spec c r) as [->|]; [|exists k'; auto]. injection G' as <-. exists k1. split; [exact Gr|exact E]. }
  destruct (add_lemma s2 r k2 p G2 Gr2 eq_refl ltac:(unfold live; rewrite Gp2; discriminate) NA) as (kp' & s' & a & b & Gp' & _ & Ekp & Ha & Hb & U' & L' & G' & H').
  rewrite Gp2 in Gp'. injection Gp' as <-. cbn [set_children r_children] in Ekp. rewrite U'. cbn [obind]. eexists _, _, _. split; [reflexivity|].
  assert (L2 : length s2 = length s) by (unfold s2; rewrite rset_length by exact Lr1; exact L1).
  split.
  - constructor; [exact G'|apply (counts_other (held h)); [reflexivity|]; eapply add_counts; [exact C2|exact Gr2|reflexivity|exact Gp2|exact Nrp|exact H']|]. intros x Hx. apply (v_new _ _ V). lia.
  - cbn [effect]. split; [reflexivity|]. split; [congruence|]. split. { intros [H|H]; [congruence|]. exfalso. apply (H p). exists k. auto. }
    intros q (k' & Gk' & Eq) _. assert (k' = k) by congruence. subst k'. assert (q = p) by congruence. subst q. exists (a ++ r :: b). split.
    + exists a, b. rewrite (children_get _ _ _ Gp). split; [exact Ekp|]. split; [reflexivity|].
      assert (Pc : forall c, prio_of s' c = prio_of s2 c). { intros c. unfold prio_of. rewrite H'. destruct (Nat.eqb_spec c r) as [->|_]; [rewrite Gr2; reflexivity|]. destruct (Nat.eqb_spec c p) as [->|_]; [|reflexivity]. rewrite Gp2. reflexivity. }
      rewrite (Pc r). assert (Pr : prio_of s2 r = r_prio k2) by (unfold prio_of; rewrite Gr2; reflexivity). rewrite Pr. split; intros c Ic; rewrite Pc; auto.
    + intros x. rewrite H'. destruct (Nat.eqb_spec x r) as [->|Nr].
      * rewrite G. cbn [option_map]. unfold set_refs, set_parent. cbn. rewrite P, inc_dec; [reflexivity| |]; destruct (v_counts _ _ V r k G) as [B E]; rewrite E; pose proof (pa_le k); pose proof (un_le k); unfold pa in *; rewrite P in *; clear - B H H0; lia.
      * destruct (Nat.eqb_spec x p) as [->|Np']; [rewrite Gp; reflexivity|]. rewrite H2, H1. destruct (Nat.eqb_spec x r); [contradiction|]. destruct (Nat.eqb_spec x p); [contradiction|]. destruct (rget s x); reflexivity.
Qed.
Lemma do_add_ok h s r c flags : inv h s -> may h s (AddChild r c flags) -> exists s' tr z, call s (AddChild r c flags) = Ok (s', tr, z) /\ inv (AddChild r c flags :: h) s' /\ effect h s (AddChild r c flags) s' tr z.
Proof.
  intros V (Lr & Lc & NA). apply live_get in Lc as (k & G). cbn [call]. unfold add_child. rewrite (the_get _ _ _ G). cbn [obind]. destruct (r_parent k) as [p|] eqn:P.
  { eexists _, _, _. split; [reflexivity|]. split; [destruct V; constructor; assumption|]. cbn [effect]. split; [reflexivity|]. split; [reflexivity|]. split; [auto|]. intros H. exfalso. apply (H p). exists k. auto. }
  set (k1 := set_flags k flags). set (s1 := rset s c (Some k1)). assert (Lc : c < length s) by (eapply rget_lt, G). assert (S : same_links s s1) by (apply (same_set s c k); auto).
  assert (H1 : forall x, rget s1 x = if x =? c then Some k1 else rget s x) by (intros x; apply rget_rset, Lc).
  assert (G1 : rget s1 c = Some k1) by (rewrite H1, Nat.eqb_refl; reflexivity).
  assert (S' : same_links s1 s) by (intros x; specialize (S x); destruct (rget s x), (rget s1 x); try contradiction; auto; destruct S as (? & ? & ?); auto).
  assert (C1 : counts (held h) s1). { intros x kx. rewrite H1. destruct (Nat.eqb_spec x c) as [->|]; intros Gx; [injection Gx as <-; exact (v_counts _ _ V c k G)|exact (v_counts _ _ V x kx Gx)]. }
  destruct (add_lemma s1 c k1 r (same_good _ _ S (v_good _ _ V)) G1 P) as (kr & s' & a & b & Gr & N & Ekr & Ha & Hb & U & L' & G' & H').
  { apply (same_live _ _ S), Lr. } { intros A. apply NA, (same_above _ _ S'), A. }
  rewrite U. cbn [obind]. eexists _, _, _. split; [reflexivity|]. assert (L1 : length s1 = length s) by (apply rset_length, Lc). split.
  - constructor; [exact G'|apply (counts_other (held h)); [reflexivity|]; eapply add_counts; [exact C1|exact G1|exact P|exact Gr|exact N|exact H']|]. intros x Hx. apply (v_new _ _ V). lia.
  - cbn [effect]. split; [reflexivity|]. split; [congruence|]. split. { intros (p & k' & Gk & Ek). congruence. } intros _. split; [reflexivity|]. exists (a ++ c :: b).
    assert (Gr0 : rget s r = Some kr) by (rewrite H1 in Gr; destruct (Nat.eqb_spec r c); [congruence|exact Gr]). split.
    + exists a, b. rewrite (children_get _ _ _ Gr0). split; [exact Ekr|]. split; [reflexivity|].
      assert (Pc : forall x, prio_of s' x = prio_of s1 x). { intros x. unfold prio_of. rewrite H'. destruct (Nat.eqb_spec x c) as [->|_]; [rewrite G1; reflexivity|]. destruct (Nat.eqb_spec x r) as [->|_]; [|reflexivity]. rewrite Gr. reflexivity. }
      rewrite (Pc c). assert (Pr : prio_of s1 c = r_prio k1) by (unfold prio_of; rewrite G1; reflexivity). rewrite Pr. split; intros x Ix; rewrite Pc; auto.
    + intros x. rewrite H', H1. destruct (Nat.eqb_spec x c) as [->|Nc].
      * rewrite G. cbn [option_map]. unfold set_refs, set_parent, k1, set_flags. cbn. rewrite inc_ok; [reflexivity|]. destruct (v_counts _ _ V c k G) as [B E]. rewrite E. unfold pa. rewrite P. pose proof (un_le k). clear - B H. lia.
      * destruct (Nat.eqb_spec x r) as [->|]; [rewrite Gr0; reflexivity|]. destruct (rget s x); reflexivity.
Qed.
