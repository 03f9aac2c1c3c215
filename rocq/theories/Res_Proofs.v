From Verif Require Import Base Res_Model Res_Spec.
Local Open Scope nat_scope.

Lemma rset_length s r k : r < length s -> length (rset s r k) = length s.
Proof. intros H. unfold rset. rewrite app_length. cbn [length]. rewrite firstn_length, skipn_length. lia. Qed.
Lemma rget_rset s r k x : r < length s -> rget (rset s r k) x = if x =? r then k else rget s x.
Proof.
  intros H. unfold rget, rset. destruct (Nat.eqb_spec x r) as [->|N].
  - rewrite app_nth2; rewrite firstn_length, Nat.min_l by lia; [|lia]. rewrite Nat.sub_diag. reflexivity.
  - destruct (Nat.lt_ge_cases x r) as [L|L].
    + rewrite app_nth1 by (rewrite firstn_length; lia). rewrite <- (firstn_skipn r s) at 2. rewrite app_nth1 by (rewrite firstn_length; lia). reflexivity.
    + rewrite app_nth2 by (rewrite firstn_length; lia). rewrite firstn_length, Nat.min_l by lia. destruct (x - r) as [|n] eqn:E; [lia|]. cbn [nth]. rewrite <- (firstn_skipn (S r) s) at 2. rewrite app_nth2 by (rewrite firstn_length; lia). rewrite firstn_length, Nat.min_l by lia. f_equal. lia.
Qed.
Lemma rget_lt s r k : rget s r = Some k -> r < length s.
Proof. intros H. destruct (Nat.lt_ge_cases r (length s)) as [L|L]; [exact L|]. unfold rget in H. rewrite nth_overflow in H by exact L. discriminate H. Qed.
Lemma st_ext (a b : st) : length a = length b -> (forall x, rget a x = rget b x) -> a = b.
Proof. intros L H. apply (nth_ext _ _ None None L). intros n _. apply H. Qed.
Lemma live_get s r : live s r -> exists k, rget s r = Some k.
Proof. unfold live. destruct (rget s r); [eauto|contradiction]. Qed.
Lemma get_live s r k : rget s r = Some k -> live s r.
Proof. unfold live. intros ->. discriminate. Qed.
Lemma the_get s r k : rget s r = Some k -> the s r = Ok k.
Proof. unfold the. intros ->. reflexivity. Qed.

Definition agree (s : st) : Prop := (forall p c, child_of s p c <-> parent_of s c p) /\ (forall c p, parent_of s c p -> live s p) /\ (forall p, NoDup (children_of s p)).
Definition ranked (s : st) : Prop := forall r, Acc (parent_of s) r.
Definition sorted (s : st) : Prop := forall p, ordered s (children_of s p).
Record good (s : st) : Prop := { g_agree : agree s; g_rank : ranked s; g_sorted : sorted s }.

Lemma above_trans s a b c : above s a b -> above s b c -> above s a c.
Proof. intros A B. induction B; [exact A|]. eapply Ab_up; eassumption. Qed.
Lemma above_next s a x : above s a x -> a = x \/ exists c, parent_of s c a /\ above s c x.
Proof. induction 1 as [|c p P A IH]; [left; reflexivity|]. right. destruct IH as [->|(c' & P' & A')]; [exists c; split; [exact P|constructor]|]. exists c'. split; [exact P'|eapply Ab_up; eassumption]. Qed.
Lemma acyclic s : ranked s -> forall c p, parent_of s c p -> ~ above s c p.
Proof.
  intros R c p. revert c. induction (R p) as [p _ IH]. intros c P A. destruct (above_next _ _ _ A) as [->|(c' & P' & A')]; [exact (IH p P p P A)|].
  apply (IH c P c' P'). eapply Ab_up; eassumption.
Qed.
Lemma not_self s : ranked s -> forall c, ~ parent_of s c c.
Proof. intros R c P. exact (acyclic s R c c P (Ab_self s c)). Qed.
Lemma ranked_sub s s' : (forall c p, parent_of s' c p -> parent_of s c p) -> ranked s -> ranked s'.
Proof. intros H R r. induction (R r) as [r _ IH]. constructor. intros c P. apply IH, H, P. Qed.
Lemma parent_fun s c p q : parent_of s c p -> parent_of s c q -> p = q.
Proof. intros (k & E & H) (k' & E' & H'). congruence. Qed.
(* the way up is a line *)
Lemma above_line s a b x : above s a x -> above s b x -> above s a b \/ above s b a.
Proof.
  intros A. induction A as [|c p P A IH]; intros H; [right; exact H|]. inversion H; subst; [left; eapply Ab_up; eassumption|].
  rewrite (parent_fun _ _ _ _ P H0) in *. apply IH. assumption.
Qed.
Lemma children_get s p k : rget s p = Some k -> children_of s p = r_children k.
Proof. unfold children_of. intros ->. reflexivity. Qed.
Lemma child_in s p c : child_of s p c <-> In c (children_of s p).
Proof. unfold child_of, children_of. split; [intros (k & -> & I); exact I|]. destruct (rget s p); [eauto|intros []]. Qed.

(* Changes that leave links and priorities alone *)
Definition same_links (s s' : st) : Prop := forall x, match rget s x, rget s' x with
  | Some k, Some k' => r_parent k = r_parent k' /\ r_children k = r_children k' /\ r_prio k = r_prio k'
  | None, None => True
  | _, _ => False
  end.
Lemma same_parent s s' : same_links s s' -> forall c p, parent_of s c p <-> parent_of s' c p.
Proof. intros S c p. specialize (S c). unfold parent_of. destruct (rget s c) as [k|], (rget s' c) as [k'|]; try contradiction; [|tauto]. destruct S as (E & _). split; intros (k0 & Eq & H); injection Eq as <-; [exists k'|exists k]; split; congruence. Qed.
Lemma same_children s s' : same_links s s' -> forall p, children_of s p = children_of s' p.
Proof. intros S p. specialize (S p). unfold children_of. destruct (rget s p), (rget s' p); try contradiction; tauto. Qed.
Lemma same_prio s s' : same_links s s' -> forall p, prio_of s p = prio_of s' p.
Proof. intros S p. specialize (S p). unfold prio_of. destruct (rget s p), (rget s' p); try contradiction; tauto. Qed.
Lemma same_live s s' : same_links s s' -> forall p, live s p <-> live s' p.
Proof. intros S p. specialize (S p). unfold live. destruct (rget s p), (rget s' p); try contradiction; split; congruence. Qed.
Lemma ordered_ext s s' l : (forall x, In x l -> prio_of s x = prio_of s' x) -> ordered s l -> ordered s' l.
Proof. induction l as [|c l IH]; intros E H; [exact I|]. destruct H as [H1 H2]. split; [|apply IH; [intros x Ix; apply E; right; exact Ix|exact H2]]. intros d Id. rewrite <- !E by (cbn; tauto). apply H1, Id. Qed.
Lemma same_above s s' : same_links s s' -> forall a x, above s a x -> above s' a x.
Proof. intros S a x A. induction A; [constructor|]. eapply Ab_up; [apply (same_parent _ _ S); eassumption|assumption]. Qed.
Lemma same_good s s' : same_links s s' -> good s -> good s'.
Proof.
  intros S [(A1 & A2 & A3) R O]. constructor.
  - split; [|split].
    + intros p c. rewrite child_in, <- (same_children _ _ S), <- child_in, A1. apply same_parent, S.
    + intros c p P. apply (same_live _ _ S). apply (A2 c). apply (same_parent _ _ S). exact P.
    + intros p. rewrite <- (same_children _ _ S). apply A3.
  - apply (ranked_sub s); [|exact R]. intros c p P. apply (same_parent _ _ S). exact P.
  - intros p. rewrite <- (same_children _ _ S). apply (ordered_ext s); [intros x _; apply same_prio, S|apply O].
Qed.
Lemma same_set s r k k' : rget s r = Some k -> r_parent k = r_parent k' -> r_children k = r_children k' -> r_prio k = r_prio k' -> same_links s (rset s r (Some k')).
Proof. intros G E1 E2 E3 x. rewrite rget_rset by (eapply rget_lt; exact G). destruct (Nat.eqb_spec x r) as [->|N]; [rewrite G; auto|]. destruct (rget s x); auto. Qed.

Lemma remove_in r (l : list nat) c : In c (remove Nat.eq_dec r l) <-> In c l /\ c <> r.
Proof. split; [intros H; apply in_remove in H; tauto|intros [H1 H2]; apply in_in_remove; assumption]. Qed.
Lemma ordered_remove s r l : ordered s l -> ordered s (remove Nat.eq_dec r l).
Proof. induction l as [|c l IH]; intros H; [exact I|]. destruct H as [H1 H2]. cbn [remove]. destruct (Nat.eq_dec r c); [apply IH, H2|]. split; [intros d Id; apply remove_in in Id as [Id _]; apply H1, Id|apply IH, H2]. Qed.
Lemma nodup_remove r (l : list nat) : NoDup l -> NoDup (remove Nat.eq_dec r l).
Proof. induction 1 as [|c l N H IH]; [constructor|]. cbn [remove]. destruct (Nat.eq_dec r c); [exact IH|]. constructor; [rewrite remove_in; tauto|exact IH]. Qed.

(* A resource leaves its parent *)
Lemma remove_lemma s r k p : good s -> rget s r = Some k -> r_parent k = Some p ->
  exists kp s', rget s p = Some kp /\ r <> p /\ remove_from_parent s r = Ok s' /\ length s' = length s /\ good s'
  /\ (forall x, rget s' x = if x =? r then Some (set_refs (set_parent k None) (dec (r_refs k))) else if x =? p then Some (set_children kp (remove Nat.eq_dec r (r_children kp))) else rget s x)
  /\ (forall a x, above s' a x -> above s a x).
Proof.
  intros [(A1 & A2 & A3) R O] G P. assert (PO : parent_of s r p) by (exists k; auto). destruct (live_get _ _ (A2 _ _ PO)) as (kp & Gp). assert (N : r <> p) by (intros ->; exact (not_self s R _ PO)).
  pose proof (rget_lt _ _ _ G) as Lr. pose proof (rget_lt _ _ _ Gp) as Lp. set (s1 := rset s p (Some (set_children kp (remove Nat.eq_dec r (r_children kp))))). assert (L1 : length s1 = length s) by (apply rset_length; exact Lp).
  assert (G1 : rget s1 r = Some k) by (unfold s1; rewrite rget_rset by exact Lp; destruct (Nat.eqb_spec r p); [contradiction|exact G]).
  set (s' := rset s1 r (Some (set_refs (set_parent k None) (dec (r_refs k))))). exists kp, s'. split; [exact Gp|]. split; [exact N|].
  assert (E : remove_from_parent s r = Ok s') by (unfold remove_from_parent; rewrite (the_get _ _ _ G); cbn [obind]; rewrite P, (the_get _ _ _ Gp); cbn [obind]; fold s1; rewrite (the_get _ _ _ G1); reflexivity). split; [exact E|].
  assert (Ef : forall x, rget s' x = if x =? r then Some (set_refs (set_parent k None) (dec (r_refs k))) else if x =? p then Some (set_children kp (remove Nat.eq_dec r (r_children kp))) else rget s x).
  { intros x. unfold s'. rewrite rget_rset by (rewrite L1; exact Lr). destruct (x =? r); [reflexivity|]. unfold s1. apply rget_rset, Lp. }
  split; [unfold s'; rewrite rset_length by (rewrite L1; exact Lr); exact L1|].
  assert (Par : forall c q, parent_of s' c q <-> parent_of s c q /\ c <> r).
  { intros c q. unfold parent_of. rewrite Ef. destruct (Nat.eqb_spec c r) as [->|Nc].
    - split; [intros (k0 & Eq & H); injection Eq as <-; discriminate H|intros [_ H]; contradiction].
    - destruct (Nat.eqb_spec c p) as [->|Np]; [|tauto]. rewrite Gp. split; [intros (k0 & Eq & H); injection Eq as <-; split; [exists kp; auto|exact Nc]|intros [(k0 & Eq & H) _]; injection Eq as <-; eexists; split; [reflexivity|exact H]]. }
  assert (Ch : forall q, children_of s' q = if q =? p then remove Nat.eq_dec r (children_of s q) else children_of s q).
  { intros q. unfold children_of. rewrite Ef. destruct (Nat.eqb_spec q r) as [->|Nq]; [destruct (Nat.eqb_spec r p); [contradiction|]; rewrite G; reflexivity|]. destruct (Nat.eqb_spec q p) as [->|]; [rewrite Gp; reflexivity|reflexivity]. }
  assert (Pr : forall x, prio_of s' x = prio_of s x).
  { intros x. unfold prio_of. rewrite Ef. destruct (Nat.eqb_spec x r) as [->|]; [rewrite G; reflexivity|]. destruct (Nat.eqb_spec x p) as [->|]; [rewrite Gp; reflexivity|reflexivity]. }
  assert (Lv : forall x, live s x -> live s' x).
  { intros x H. unfold live in *. rewrite Ef. destruct (x =? r); [discriminate|]. destruct (x =? p); [discriminate|exact H]. }
  split; [|split; [exact Ef|intros a x H; induction H as [|c q Q H IH]; [constructor|]; apply Par in Q as [Q _]; eapply Ab_up; eassumption]].
  constructor.
  - split; [|split].
    + intros q c. rewrite child_in, Ch, Par. destruct (Nat.eqb_spec q p) as [->|Nq].
      * rewrite remove_in, <- child_in, A1. tauto.
      * rewrite <- child_in, A1. split; [intros H; split; [exact H|]|tauto]. intros ->. apply Nq. eapply parent_fun; eassumption.
    + intros c q H. apply Par in H as [H _]. apply Lv, (A2 _ _ H).
    + intros q. rewrite Ch. destruct (q =? p); [apply nodup_remove|]; apply A3.
  - apply (ranked_sub s); [|exact R]. intros c q H. apply Par in H as [H _]. exact H.
  - intros q. rewrite Ch. apply (ordered_ext s); [intros; symmetry; apply Pr|]. destruct (q =? p); [apply ordered_remove|]; apply O.
Qed.
Lemma remove_none s r k : rget s r = Some k -> r_parent k = None -> remove_from_parent s r = Ok s.
Proof. intros G P. unfold remove_from_parent. rewrite (the_get _ _ _ G). cbn [obind]. rewrite P. reflexivity. Qed.

(* A resource gets a parent *)
Lemma place_lemma s pr r l : (forall c, In c l -> live s c) -> ordered s l ->
  exists a b, place s pr r l = Ok (a ++ r :: b) /\ l = a ++ b /\ (forall c, In c a -> (prio_of s c <= pr)%Z) /\ (forall c, In c b -> (pr < prio_of s c)%Z).
Proof.
  induction l as [|c l IH]; intros L O.
  - exists [], []. split; [reflexivity|]. split; [reflexivity|]. split; intros ? [].
  - destruct O as [O1 O2]. destruct (live_get s c (L c (or_introl eq_refl))) as (k & G). cbn [place]. rewrite (the_get _ _ _ G). cbn [obind]. assert (Ek : prio_of s c = r_prio k) by (unfold prio_of; rewrite G; reflexivity).
    destruct (Z.ltb_spec pr (r_prio k)) as [Lt|Ge].
    + exists [], (c :: l). split; [reflexivity|]. split; [reflexivity|]. split; [intros ? []|]. intros d [<-|Id]; [lia|]. specialize (O1 d Id). lia.
    + destruct (IH (fun x H => L x (or_intror H)) O2) as (a & b & E & -> & Ha & Hb). rewrite E. cbn [obind]. exists (c :: a), b. split; [reflexivity|]. split; [reflexivity|]. split; [|exact Hb]. intros d [<-|Id]; [lia|apply Ha, Id].
Qed.
Lemma ordered_insert s r a b : ordered s (a ++ b) -> (forall c, In c a -> (prio_of s c <= prio_of s r)%Z) -> (forall c, In c b -> (prio_of s r < prio_of s c)%Z) -> ordered s (a ++ r :: b).
Proof.
  induction a as [|x a IH]; intros O Ha Hb.
  - split; [intros d Id; specialize (Hb d Id); lia|exact O].
  - destruct O as [O1 O2]. split; [|apply IH; [exact O2|intros c Ic; apply Ha; right; exact Ic|exact Hb]]. intros d Id. apply in_app_or in Id as [Id|[<-|Id]]; [apply O1, in_or_app; left; exact Id|apply Ha; left; reflexivity|apply O1, in_or_app; right; exact Id].
Qed.
Lemma above_child s a x : above s a x -> forall y, above s x y -> above s a y.
Proof. intros A y H. eapply above_trans; eassumption. Qed.
Lemma add_lemma s r k p : good s -> rget s r = Some k -> r_parent k = None -> live s p -> ~ above s r p ->
  exists kp s' a b, rget s p = Some kp /\ r <> p /\ r_children kp = a ++ b /\ (forall c, In c a -> (prio_of s c <= r_prio k)%Z) /\ (forall c, In c b -> (r_prio k < prio_of s c)%Z)
  /\ add_to_parent s r (Some p) = Ok s' /\ length s' = length s /\ good s'
  /\ (forall x, rget s' x = if x =? r then Some (set_refs (set_parent k (Some p)) (inc (r_refs k))) else if x =? p then Some (set_children kp (a ++ r :: b)) else rget s x).
Proof.
  intros [(A1 & A2 & A3) R O] G P Lv NA. destruct (live_get _ _ Lv) as (kp & Gp). assert (N : r <> p) by (intros ->; apply NA; constructor).
  pose proof (rget_lt _ _ _ G) as Lr. pose proof (rget_lt _ _ _ Gp) as Lp. set (s1 := rset s r (Some (set_parent k (Some p)))). assert (L1 : length s1 = length s) by (apply rset_length; exact Lr).
  assert (G1 : forall x, rget s1 x = if x =? r then Some (set_parent k (Some p)) else rget s x) by (intros x; unfold s1; apply rget_rset, Lr).
  assert (Pr1 : forall x, prio_of s1 x = prio_of s x) by (intros x; unfold prio_of; rewrite G1; destruct (Nat.eqb_spec x r) as [->|]; [rewrite G|]; reflexivity).
  assert (Ckp : children_of s p = r_children kp) by (apply children_get, Gp).
  destruct (place_lemma s1 (r_prio k) r (r_children kp)) as (a & b & Ep & Eab & Ha & Hb).
  { intros c Ic. assert (Pc : parent_of s c p) by (apply A1; exists kp; auto). destruct Pc as (kc & Gc & _). unfold live. rewrite G1. destruct (c =? r); [discriminate|]. rewrite Gc. discriminate. }
  { apply (ordered_ext s); [intros; symmetry; apply Pr1|]. rewrite <- Ckp. apply O. }
  set (s2 := rset s1 p (Some (set_children kp (a ++ r :: b)))). assert (L2 : length s2 = length s) by (unfold s2; rewrite rset_length by (rewrite L1; exact Lp); exact L1).
  assert (G2 : forall x, rget s2 x = if x =? p then Some (set_children kp (a ++ r :: b)) else rget s1 x) by (intros x; unfold s2; apply rget_rset; rewrite L1; exact Lp).
  set (s' := rset s2 r (Some (set_refs (set_parent k (Some p)) (inc (r_refs k))))). exists kp, s', a, b. split; [exact Gp|]. split; [exact N|]. split; [exact Eab|].
  split; [intros c Ic; rewrite <- Pr1; apply Ha, Ic|]. split; [intros c Ic; rewrite <- Pr1; apply Hb, Ic|].
  assert (E : add_to_parent s r (Some p) = Ok s').
  { unfold add_to_parent. rewrite (the_get _ _ _ G). cbn [obind]. fold s1. assert (G1p : rget s1 p = Some kp) by (rewrite G1; destruct (Nat.eqb_spec p r); [congruence|exact Gp]). rewrite (the_get _ _ _ G1p). cbn [obind]. rewrite Ep. cbn [obind]. fold s2.
    assert (G2r : rget s2 r = Some (set_parent k (Some p))) by (rewrite G2; destruct (Nat.eqb_spec r p); [contradiction|]; rewrite G1, Nat.eqb_refl; reflexivity). rewrite (the_get _ _ _ G2r). reflexivity. }
  split; [exact E|]. split; [unfold s'; rewrite rset_length by (rewrite L2; exact Lr); exact L2|].
  assert (Ef : forall x, rget s' x = if x =? r then Some (set_refs (set_parent k (Some p)) (inc (r_refs k))) else if x =? p then Some (set_children kp (a ++ r :: b)) else rget s x).
  { intros x. unfold s'. rewrite rget_rset by (rewrite L2; exact Lr). destruct (x =? r) eqn:Ex; [reflexivity|]. rewrite G2. destruct (x =? p); [reflexivity|]. rewrite G1, Ex. reflexivity. }
  split; [|exact Ef].
  assert (Par : forall c q, parent_of s' c q <-> parent_of s c q \/ c = r /\ q = p).
  { intros c q. unfold parent_of. rewrite Ef. destruct (Nat.eqb_spec c r) as [->|Nc].
    - rewrite G. split; [intros (k0 & Eq & H); injection Eq as <-; right; cbn in H; split; congruence|]. intros [(k0 & Eq & H)|[_ ->]]; [congruence|]. eexists. split; reflexivity.
    - destruct (Nat.eqb_spec c p) as [->|Np]; [|tauto]. rewrite Gp. split; [intros (k0 & Eq & H); injection Eq as <-; left; exists kp; auto|]. intros [(k0 & Eq & H)|[H _]]; [|contradiction]. injection Eq as <-. eexists. split; [reflexivity|exact H]. }
  assert (Ch : forall q, children_of s' q = if q =? p then a ++ r :: b else children_of s q).
  { intros q. unfold children_of. rewrite Ef. destruct (Nat.eqb_spec q r) as [->|Nq]; [destruct (Nat.eqb_spec r p); [contradiction|]; rewrite G; reflexivity|]. destruct (Nat.eqb_spec q p) as [->|]; reflexivity. }
  assert (Pr : forall x, prio_of s' x = prio_of s x).
  { intros x. unfold prio_of. rewrite Ef. destruct (Nat.eqb_spec x r) as [->|]; [rewrite G; reflexivity|]. destruct (Nat.eqb_spec x p) as [->|]; [rewrite Gp; reflexivity|reflexivity]. }
  assert (Nr : forall q, ~ parent_of s r q) by (intros q (k0 & Eq & H); congruence).
  constructor.
  - split; [|split].
    + intros q c. rewrite child_in, Ch, Par. destruct (Nat.eqb_spec q p) as [->|Nq].
      * rewrite in_app_iff. cbn [In]. rewrite <- A1, child_in, Ckp, Eab, in_app_iff. split; [intros [H|[H|H]]; auto|intros [[H|H]|[H _]]; auto].
      * rewrite <- child_in, A1. split; [tauto|intros [H|[_ H]]; [exact H|contradiction]].
    + intros c q H. assert (live s q) by (apply Par in H as [H|[_ ->]]; [exact (A2 _ _ H)|exact Lv]). unfold live in *. rewrite Ef. destruct (q =? r); [discriminate|]. destruct (q =? p); [discriminate|assumption].
    + intros q. rewrite Ch. destruct (Nat.eqb_spec q p) as [->|]; [|apply A3]. apply NoDup_Add with (l := a ++ b) (a := r); [apply Add_app|]. split; [rewrite <- Eab, <- Ckp; apply A3|]. rewrite <- Eab, <- Ckp, <- child_in, A1. apply Nr.
  - assert (Hr : forall y, above s r y -> Acc (parent_of s') y).
    { intros y. induction (R y) as [y _ IH]. intros A. constructor. intros c H. apply Par in H as [H|[-> ->]]; [|contradiction]. apply IH; [exact H|]. eapply Ab_up; eassumption. }
    intros y. induction (R y) as [y _ IH]. constructor. intros c H. apply Par in H as [H|[-> ->]]; [apply IH, H|apply Hr; constructor].
  - intros q. rewrite Ch. apply (ordered_ext s); [intros; symmetry; apply Pr|]. destruct (Nat.eqb_spec q p) as [->|]; [|apply O]. assert (Er : prio_of s r = r_prio k) by (unfold prio_of; rewrite G; reflexivity).
    apply ordered_insert; [rewrite <- Eab, <- Ckp; apply O| |]; intros c Ic; rewrite Er, <- Pr1; [apply Ha|apply Hb]; exact Ic.
Qed.
