From Verif Require Import Base List_Model List_Spec.
Local Open Scope nat_scope.

Lemma write_same m a c : write m a c a = c. Proof. unfold write. rewrite Nat.eqb_refl. reflexivity. Qed.
Lemma write_other m a c x : x <> a -> write m a c x = m x. Proof. unfold write. intros H. destruct (Nat.eqb_spec x a); [contradiction|reflexivity]. Qed.

(* consecutive places of l point at each other *)
Fixpoint linked (m : mem) (l : list loc) : Prop :=
  match l with
  | a :: ((b :: _) as r) => next m a = Ok b /\ prev m b = Ok a /\ linked m r
  | _ => True
  end.
Lemma linked_app m l1 a l2 : linked m (l1 ++ a :: l2) <-> linked m (l1 ++ [a]) /\ linked m (a :: l2).
Proof.
  induction l1 as [|x l1 IH]; [cbn; tauto|]. destruct l1 as [|y l1].
  - cbn [app linked]. destruct l2; cbn [linked]; tauto.
  - cbn [app] in *. cbn [linked]. fold (linked m). cbn [linked] in IH. tauto.
Qed.
Lemma linked_frame m m' l : linked m l -> (forall a, In a (removelast l) -> next m' a = next m a) -> (forall a, In a (tl l) -> prev m' a = prev m a) -> linked m' l.
Proof.
  induction l as [|a l IH]; [auto|]. destruct l as [|b l]; [auto|]. intros (N & P & L) Hn Hp. cbn [linked]. split; [|split].
  - rewrite Hn; [exact N|left; reflexivity].
  - rewrite Hp; [exact P|left; reflexivity].
  - apply IH; [exact L| |].
    + intros x Hx. apply Hn. cbn [removelast]. right. exact Hx.
    + intros x Hx. apply Hp. cbn [tl] in *. right. exact Hx.
Qed.
Lemma linked_same m m' l : linked m l -> (forall a, In a l -> m' a = m a) -> linked m' l.
Proof.
  intros L H. apply (linked_frame m); [exact L| |].
  - intros a Ha. unfold next. rewrite H; [reflexivity|]. clear - Ha. induction l as [|x l IH]; [destruct Ha|]. destruct l; [destruct Ha|]. cbn [removelast] in Ha. destruct Ha as [->|Ha]; [left; reflexivity|right; auto].
  - intros a Ha. unfold prev. rewrite H; [reflexivity|]. destruct l; [destruct Ha|right; exact Ha].
Qed.
Lemma next_ok m a b : next m a = Ok b -> exists p, m a = Some (b, p).
Proof. unfold next. destruct (m a) as [[n p]|]; [|discriminate]. intros [= ->]. eauto. Qed.
Lemma prev_ok m a b : prev m a = Ok b -> exists n, m a = Some (n, b).
Proof. unfold prev. destruct (m a) as [[n p]|]; [|discriminate]. intros [= ->]. eauto. Qed.

(* what writing does to the reads *)
Lemma set_next_ok m a n : m a <> None -> exists m', set_next m a n = Ok m' /\ next m' a = Ok n /\ (forall x, prev m' x = prev m x) /\ (forall x, x <> a -> m' x = m x) /\ m' a <> None.
Proof.
  intros H. unfold set_next. destruct (m a) as [[n0 p]|] eqn:E; [|contradiction]. eexists. split; [reflexivity|]. split; [unfold next; rewrite write_same; reflexivity|]. split; [|split].
  - intros x. unfold prev. destruct (Nat.eq_dec x a) as [->|N]; [rewrite write_same, E; reflexivity|rewrite write_other by exact N; reflexivity].
  - intros x N. apply write_other. exact N.
  - rewrite write_same. discriminate.
Qed.
Lemma set_prev_ok m a p : m a <> None -> exists m', set_prev m a p = Ok m' /\ prev m' a = Ok p /\ (forall x, next m' x = next m x) /\ (forall x, x <> a -> m' x = m x) /\ m' a <> None.
Proof.
  intros H. unfold set_prev. destruct (m a) as [[n p0]|] eqn:E; [|contradiction]. eexists. split; [reflexivity|]. split; [unfold prev; rewrite write_same; reflexivity|]. split; [|split].
  - intros x. unfold next. destruct (Nat.eq_dec x a) as [->|N]; [rewrite write_same, E; reflexivity|rewrite write_other by exact N; reflexivity].
  - intros x N. apply write_other. exact N.
  - rewrite write_same. discriminate.
Qed.
Lemma dom_keep (m m' : mem) a : (forall x, x <> a -> m' x = m x) -> m' a <> None -> m a <> None -> forall x, m' x = None <-> m x = None.
Proof. intros H A B x. destruct (Nat.eq_dec x a) as [->|N]; [split; intros; contradiction|rewrite (H x N); tauto]. Qed.
Lemma none_next m a : m a = None <-> next m a = UB. Proof. unfold next. destruct (m a) as [[? ?]|]; split; discriminate || reflexivity. Qed.

Definition ring (m : mem) (h : loc) (l : list loc) : Prop := linked m (h :: l ++ [h]) /\ NoDup (h :: l).
Lemma linked_some m l a : linked m l -> In a l -> 2 <= length l -> m a <> None.
Proof.
  revert a. induction l as [|x l IH]; intros a L I Ln; [destruct I|]. destruct l as [|y l]; [cbn in Ln; lia|]. destruct L as (N & P & L).
  destruct I as [->|I]; [apply next_ok in N as (p & ->); discriminate|]. destruct l as [|z l].
  - destruct I as [->|[]]. apply prev_ok in P as (n & ->). discriminate.
  - apply IH; [exact L|exact I|cbn; lia].
Qed.
Lemma ring_some m h l a : ring m h l -> In a (h :: l) -> m a <> None.
Proof. intros [L _] I. apply (linked_some m (h :: l ++ [h])); [exact L| |cbn; rewrite app_length; cbn; lia]. destruct I as [->|I]; [left; reflexivity|right; apply in_or_app; left; exact I]. Qed.
Lemma ring_ends m h l : ring m h l -> next m h = Ok (hd h l) /\ prev m h = Ok (last l h).
Proof.
  intros [L _]. split.
  - destruct l; [exact (proj1 L)|exact (proj1 L)].
  - destruct (exists_last (l := h :: l)) as (l' & z & E); [discriminate|]. rewrite app_comm_cons, E in L. rewrite <- app_assoc in L. cbn [app] in L. apply linked_app in L as [_ L].
    destruct L as (_ & P & _). rewrite P. f_equal. destruct l as [|x l]; [destruct l' as [|? l']; [injection E as ->; reflexivity|destruct l'; discriminate E]|].
    change (last (x :: l) h) with (last (h :: x :: l) h). rewrite E. clear. induction l' as [|? l' IH]; [reflexivity|]. cbn [app last] in *. rewrite <- IH. destruct (l' ++ [z]) eqn:E; [destruct l'; discriminate E|reflexivity].
Qed.

Lemma nodup_snoc {A} (l : list A) e : NoDup l -> ~ In e l -> NoDup (l ++ [e]).
Proof. intros N I. induction l as [|x l IH]; [constructor; [intros []|constructor]|]. apply NoDup_cons_iff in N as [N1 N2]. cbn [app]. constructor; [|apply IH; [exact N2|intros H; apply I; right; exact H]]. intros H. apply in_app_or in H as [H|[<-|[]]]; [contradiction|]. apply I. left. reflexivity. Qed.
Lemma init_lemma m h : m h <> None -> exists m', list_init m h = Ok m' /\ ring m' h [] /\ (forall x, x <> h -> m' x = m x).
Proof.
  intros H. unfold list_init. destruct (set_prev_ok m h h H) as (m1 & -> & P1 & N1 & F1 & D1). cbn [obind].
  destruct (set_next_ok m1 h h D1) as (m2 & -> & N2 & P2 & F2 & D2). exists m2. split; [reflexivity|]. split.
  - split; [|constructor; [intros []|constructor]]. cbn [app linked]. rewrite P2. auto.
  - intros x N. rewrite F2, F1 by exact N. reflexivity.
Qed.
Lemma add_lemma m h l e : ring m h l -> m e <> None -> ~ In e (h :: l) -> exists m', list_add m h e = Ok m' /\ ring m' h (l ++ [e])
  /\ (forall x, x <> e -> x <> h -> x <> last l h -> m' x = m x) /\ (forall x, m' x = None <-> m x = None) /\ (l <> [] -> next m' h = next m h).
Proof.
  intros R E Ni. pose proof (ring_ends m h l R) as [_ Pl]. set (z := last l h) in *. assert (Ez : z = last l h) by reflexivity. clearbody z.
  assert (Iz : In z (h :: l)).
  { rewrite Ez. destruct l as [|x l]; [left; reflexivity|]. right. destruct (exists_last (l := x :: l)) as (l' & y & El); [discriminate|]. rewrite El, last_last. apply in_or_app. right. left. reflexivity. }
  assert (Dh : m h <> None) by (apply (ring_some m h l); [exact R|left; reflexivity]). assert (Dz : m z <> None) by (apply (ring_some m h l); assumption).
  assert (Neh : e <> h) by (intros ->; apply Ni; left; reflexivity). assert (Nez : e <> z) by (intros ->; contradiction).
  unfold list_add. destruct (set_next_ok m e h E) as (m1 & -> & N1 & P1 & F1 & D1). cbn [obind]. rewrite P1, Pl. cbn [obind].
  destruct (set_prev_ok m1 e z D1) as (m2 & -> & P2 & N2 & F2 & D2). cbn [obind].
  assert (Q2 : prev m2 h = Ok z) by (unfold prev; rewrite F2 by congruence; fold (prev m1 h); rewrite P1; exact Pl). rewrite Q2. cbn [obind].
  assert (Dz2 : m2 z <> None) by (rewrite F2, F1 by congruence; exact Dz).
  destruct (set_next_ok m2 z e Dz2) as (m3 & -> & N3 & P3 & F3 & D3). cbn [obind].
  assert (Dh3 : m3 h <> None) by (destruct (Nat.eq_dec h z) as [->|N]; [exact D3|rewrite F3, F2, F1 by congruence; exact Dh]).
  destruct (set_prev_ok m3 h e Dh3) as (m4 & -> & P4 & N4 & F4 & D4). exists m4. split; [reflexivity|].
  assert (NX : forall x, x <> e -> x <> z -> next m4 x = next m x).
  { intros x A B. rewrite N4. unfold next at 1. rewrite F3 by exact B. fold (next m2 x). rewrite N2. unfold next. rewrite F1 by exact A. reflexivity. }
  assert (PX : forall x, x <> e -> x <> h -> prev m4 x = prev m x).
  { intros x A B. unfold prev at 1. rewrite F4 by exact B. fold (prev m3 x). rewrite P3. unfold prev at 1. rewrite F2 by exact A. fold (prev m1 x). apply P1. }
  assert (Zn : next m4 z = Ok e) by (rewrite N4; exact N3).
  assert (En : next m4 e = Ok h). { rewrite N4. unfold next. rewrite F3 by exact Nez. fold (next m2 e). rewrite N2. exact N1. }
  assert (Ep : prev m4 e = Ok z). { unfold prev. rewrite F4 by exact Neh. fold (prev m3 e). rewrite P3. exact P2. }
  destruct R as [L Nd]. split; [|split; [|split]].
  - split.
    + destruct (exists_last (l := h :: l)) as (l' & y & El); [discriminate|].
      assert (y = z). { rewrite Ez. destruct l as [|x l]; [destruct l' as [|? l']; [injection El as ->; reflexivity|destruct l'; discriminate El]|]. change (last (x :: l) h) with (last (h :: x :: l) h). rewrite El, last_last. reflexivity. }
      subst y. rewrite <- app_assoc. rewrite app_comm_cons, El in *. rewrite <- app_assoc in *. cbn [app] in *. apply linked_app in L as [L _]. apply linked_app. split.
      * apply (linked_frame m); [exact L| |].
        -- intros a Ha. rewrite removelast_last in Ha. apply NX; intros ->; [apply Ni; apply in_or_app; left; exact Ha|]. apply NoDup_remove_2 in Nd. apply Nd. rewrite app_nil_r. exact Ha.
        -- intros a Ha. apply PX; intros ->.
           ++ apply Ni. destruct l'; [destruct Ha|right; exact Ha].
           ++ destruct l' as [|b l']; [destruct Ha|]. injection El as <- _. cbn [app tl] in *. apply NoDup_cons_iff in Nd as [Nd _]. contradiction.
      * cbn [linked]. auto.
    + rewrite app_comm_cons. apply nodup_snoc; assumption.
  - intros x A B C. rewrite F4, F3, F2, F1 by congruence. reflexivity.
  - intros x. rewrite (dom_keep m3 m4 h F4 D4 Dh3), (dom_keep m2 m3 z F3 D3 Dz2), (dom_keep m1 m2 e F2 D2 D1). apply (dom_keep m m1 e F1 D1 E).
  - intros Nl. apply NX; [congruence|]. intros ->. apply NoDup_cons_iff in Nd as [Nd _]. apply Nd. rewrite Ez. destruct l as [|x l]; [congruence|].
    destruct (exists_last (l := x :: l)) as (l' & y & El); [discriminate|]. rewrite El, last_last. apply in_or_app. right. left. reflexivity.
Qed.
Lemma del_lemma m h l1 e l2 : ring m h (l1 ++ e :: l2) -> exists m', list_del m e = Ok m' /\ ring m' h (l1 ++ l2)
  /\ (forall x, x <> last l1 h -> x <> hd h l2 -> m' x = m x) /\ (forall x, m' x = None <-> m x = None).
Proof.
  intros R. pose proof R as [L Nd]. rewrite <- app_assoc in L. cbn [app] in L. rewrite app_comm_cons in L.
  destruct (exists_last (l := h :: l1)) as (l' & z & El); [discriminate|].
  assert (Ez : z = last l1 h). { destruct l1 as [|x l1]; [destruct l' as [|? l']; [injection El as ->; reflexivity|destruct l'; discriminate El]|]. change (last (x :: l1) h) with (last (h :: x :: l1) h). rewrite El, last_last. reflexivity. }
  destruct (l2 ++ [h]) as [|w l''] eqn:Ew; [destruct l2; discriminate Ew|]. assert (Hw : w = hd h l2) by (destruct l2; injection Ew as <- _; reflexivity).
  rewrite El in L. rewrite <- app_assoc in L. cbn [app] in L. pose proof L as L0. apply linked_app in L as [La Lb]. destruct Lb as (N1 & P1 & N2 & P2 & Lb).
  assert (Ne : ~ In e (h :: l1 ++ l2)).
  { rewrite app_comm_cons in *. apply NoDup_remove in Nd as [_ Nd]. exact Nd. }
  assert (Nd' : NoDup (h :: l1 ++ l2)) by (rewrite app_comm_cons in *; apply NoDup_remove in Nd as [Nd _]; exact Nd).
  assert (Iz : In z (h :: l1)) by (rewrite El; apply in_or_app; right; left; reflexivity).
  assert (Iw : In w (h :: l2)). { rewrite Hw. destruct l2; [left; reflexivity|right; left; reflexivity]. }
  assert (Nez : e <> z). { intros ->. apply Ne. destruct Iz as [->|Iz]; [left; reflexivity|right; apply in_or_app; left; exact Iz]. }
  assert (New : e <> w). { intros ->. apply Ne. destruct Iw as [->|Iw]; [left; reflexivity|right; apply in_or_app; right; exact Iw]. }
  assert (Dw : m w <> None) by (apply prev_ok in P2 as (? & ->); discriminate). assert (Dz : m z <> None) by (apply next_ok in N1 as (? & ->); discriminate).
  unfold list_del. rewrite N2, P1. cbn [obind]. destruct (set_prev_ok m w z Dw) as (m1 & -> & A1 & A2 & A3 & A4). cbn [obind].
  assert (Q1 : prev m1 e = Ok z) by (unfold prev; rewrite A3 by exact New; exact P1). rewrite Q1. cbn [obind]. rewrite A2, N2. cbn [obind].
  assert (Dz1 : m1 z <> None) by (destruct (Nat.eq_dec z w) as [->|N]; [exact A4|rewrite A3 by exact N; exact Dz]).
  destruct (set_next_ok m1 z w Dz1) as (m2 & -> & B1 & B2 & B3 & B4). exists m2. split; [reflexivity|].
  assert (NX : forall x, x <> z -> next m2 x = next m x) by (intros x N; unfold next at 1; rewrite B3 by exact N; fold (next m1 x); apply A2).
  assert (PX : forall x, x <> w -> prev m2 x = prev m x) by (intros x N; rewrite B2; unfold prev at 1; rewrite A3 by exact N; reflexivity).
  split; [|split].
  - split; [|exact Nd']. rewrite <- app_assoc, Ew, app_comm_cons, El. rewrite <- app_assoc. cbn [app]. apply linked_app. split.
    + apply (linked_frame m); [exact La| |].
      * intros a Ha. rewrite removelast_last in Ha. apply NX. intros ->. rewrite app_comm_cons, El in Nd'. rewrite <- app_assoc in Nd'. apply NoDup_remove_2 in Nd'. apply Nd'. apply in_or_app. left. exact Ha.
      * intros a Ha. apply PX. intros ->. destruct Iw as [->|Iw].
        -- destruct l' as [|b l']; [destruct Ha|]. injection El as <- El. cbn [app tl] in Ha. rewrite <- El in Ha. apply NoDup_cons_iff in Nd' as [Nd' _]. apply Nd'. apply in_or_app. left. exact Ha.
        -- assert (Ia : In w (h :: l1)) by (rewrite El; destruct l'; [destruct Ha|right; exact Ha]). rewrite app_comm_cons in Nd'.
           revert Nd' Ia Iw. generalize (h :: l1). clear. intros l N I J. induction l as [|x l IH]; [destruct I|]. cbn [app] in N. apply NoDup_cons_iff in N as [N1 N2].
           destruct I as [->|I]; [apply N1; apply in_or_app; right; exact J|auto].
    + change (linked m2 (z :: w :: l'')) with (next m2 z = Ok w /\ prev m2 w = Ok z /\ linked m2 (w :: l'')). split; [exact B1|]. split; [rewrite B2; exact A1|].
      apply (linked_frame m); [exact Lb| |].
      * intros a Ha. apply NX. intros ->. rewrite <- Ew, removelast_last in Ha. rewrite app_comm_cons in Nd'.
        revert Nd' Iz Ha. generalize (h :: l1). clear. intros l N I J. induction l as [|x l IH]; [destruct I|]. cbn [app] in N. apply NoDup_cons_iff in N as [N1 N2].
        destruct I as [->|I]; [apply N1; apply in_or_app; right; exact J|auto].
      * intros a Ha. apply PX. intros ->. cbn [tl] in Ha. destruct l2 as [|y l2]; [injection Ew as _ <-; destruct Ha|]. injection Ew as -> <-.
        apply in_app_or in Ha as [Ha|[->|[]]].
        -- rewrite app_comm_cons in Nd'. apply NoDup_remove_2 in Nd'. apply Nd'. apply in_or_app. right. exact Ha.
        -- apply NoDup_cons_iff in Nd' as [Nd' _]. apply Nd'. apply in_or_app. right. left. reflexivity.
  - intros x A B. rewrite B3, A3 by congruence. reflexivity.
  - intros x. rewrite (dom_keep m1 m2 z B3 B4 Dz1). apply (dom_keep m m1 w A3 A4 Dw).
Qed.

(* walks *)
Lemma walk_lemma m h : forall l v fuel, linked m (v ++ l ++ [h]) -> ~ In h l -> length l < fuel -> walk next fuel m (hd h l) h = Ok (Some l).
Proof.
  induction l as [|x l IH]; intros v fuel L Ni Lf; (destruct fuel as [|fuel]; [cbn in Lf; lia|]); cbn [walk hd].
  - rewrite Nat.eqb_refl. reflexivity.
  - destruct (Nat.eqb_spec x h) as [->|_]; [elim Ni; left; reflexivity|]. cbn [app] in L. pose proof L as L'. apply linked_app in L as [_ L].
    assert (N : next m x = Ok (hd h l)) by (destruct l; exact (proj1 L)). rewrite N. cbn [obind].
    rewrite (IH (v ++ [x]) fuel); [reflexivity| | |cbn in Lf; lia].
    + rewrite <- app_assoc. exact L'.
    + intros I. apply Ni. right. exact I.
Qed.
Lemma walk_back_lemma m h : forall l v fuel, linked m (h :: rev l ++ v) -> v <> [] -> ~ In h l -> length l < fuel -> walk prev fuel m (hd h l) h = Ok (Some l).
Proof.
  induction l as [|x l IH]; intros v fuel L Nv Ni Lf; (destruct fuel as [|fuel]; [cbn in Lf; lia|]); cbn [walk hd].
  - rewrite Nat.eqb_refl. reflexivity.
  - destruct (Nat.eqb_spec x h) as [->|_]; [elim Ni; left; reflexivity|]. cbn [rev] in L. rewrite <- app_assoc in L. cbn [app] in L. pose proof L as L'.
    assert (P : prev m x = Ok (hd h l)).
    { destruct l as [|y l]; [exact (proj1 (proj2 L))|]. cbn [rev] in L. rewrite <- app_assoc in L. cbn [app] in L. rewrite app_comm_cons in L. apply linked_app in L as [_ L]. exact (proj1 (proj2 L)). }
    rewrite P. cbn [obind]. rewrite (IH (x :: v) fuel); [reflexivity|exact L'|discriminate| |cbn in Lf; lia].
    intros I. apply Ni. right. exact I.
Qed.
Lemma ring_walk m h l fuel : ring m h l -> length l < fuel -> iterate fuel m h = Ok (Some l) /\ iterate_back fuel m h = Ok (Some (rev l)).
Proof.
  intros R Lf. destruct (ring_ends m h l R) as [E1 E2]. destruct R as [L Nd]. apply NoDup_cons_iff in Nd as [Ni Nd]. unfold iterate, iterate_back. rewrite E1, E2. cbn [obind]. split.
  - apply (walk_lemma m h l [h]); assumption.
  - assert (E : last l h = hd h (rev l)). { destruct l as [|x l'] using rev_ind; [reflexivity|]. rewrite last_last, rev_app_distr. reflexivity. }
    rewrite E. apply (walk_back_lemma m h (rev l) [h]); [rewrite rev_involutive; exact L|discriminate|rewrite <- in_rev; exact Ni|rewrite rev_length; exact Lf].
Qed.
Lemma ring_empty m h l : ring m h l -> list_is_empty m h = Ok (match l with [] => true | _ => false end).
Proof.
  intros R. destruct (ring_ends m h l R) as [E _]. unfold list_is_empty. rewrite E. cbn [obind]. f_equal. destruct l as [|x l]; [apply Nat.eqb_refl|]. cbn [hd].
  destruct (Nat.eqb_spec x h) as [->|_]; [|reflexivity]. destruct R as [_ Nd]. apply NoDup_cons_iff in Nd as [Nd _]. elim Nd. left. reflexivity.
Qed.
Lemma ring_same m m' h l : ring m h l -> (forall x, In x (h :: l) -> m' x = m x) -> ring m' h l.
Proof.
  intros [L N] H. split; [|exact N]. apply (linked_same m); [exact L|]. intros a Ha. apply H. destruct Ha as [->|Ha]; [left; reflexivity|]. apply in_app_or in Ha as [Ha|[->|[]]]; [right; exact Ha|left; reflexivity].
Qed.

(* histories *)
Record good (m : mem) (s : lists) : Prop := Good {
  g_ring : forall h l, members s h = Some l -> ring m h l;
  g_apart : forall h l h' l', members s h = Some l -> members s h' = Some l' -> h <> h' -> forall x, In x (h :: l) -> ~ In x (h' :: l');
  g_known : forall x, known s x <-> m x <> None }.
Lemma hd_in (h : loc) l : In (hd h l) (h :: l). Proof. destruct l; [left|right; left]; reflexivity. Qed.
Lemma last_in (h : loc) l : In (last l h) (h :: l).
Proof. destruct l as [|x l _] using rev_ind; [left; reflexivity|]. rewrite last_last. right. apply in_or_app. right. left. reflexivity. Qed.
Lemma step_lemma m s o s' : good m s -> call s o s' -> exists m', run_op m o = Ok m' /\ good m' s'.
Proof.
  intros [R A K] C. destruct C; cbn [run_op].
  - eexists. split; [reflexivity|]. assert (D : m a = None) by (destruct (m a) eqn:E; [elim H; apply K; congruence|reflexivity]). split; cbn [members known].
    + intros h l Hl. apply (ring_same m); [exact (R h l Hl)|]. intros x Hx. apply write_other. intros ->. exact (ring_some m h l a (R h l Hl) Hx D).
    + exact A.
    + intros x. unfold write. destruct (Nat.eqb_spec x a) as [->|N]; [split; [discriminate|auto]|]. rewrite <- K. split; [intros [E|E]; [contradiction|exact E]|auto].
  - destruct (init_lemma m h) as (m' & -> & Rh & F); [apply K; exact H|]. exists m'. split; [reflexivity|].
    assert (Nh : forall h' l, members s h' = Some l -> h' <> h -> ~ In h (h' :: l)) by (intros h' l Hl N [E|I]; [congruence|exact (H0 h' l Hl I)]).
    split; cbn [members known].
    + intros h' l. unfold set_members. destruct (Nat.eqb_spec h' h) as [->|N]; [intros [= <-]; exact Rh|]. intros Hl. apply (ring_same m); [auto|].
      intros x Hx. apply F. intros ->. exact (Nh h' l Hl N Hx).
    + intros h1 l1 h2 l2. unfold set_members. destruct (Nat.eqb_spec h1 h) as [->|N1], (Nat.eqb_spec h2 h) as [->|N2]; intros H1' H2' Ne x Hx Hx'; try contradiction.
      * injection H1' as <-. destruct Hx as [<-|[]]. exact (Nh h2 l2 H2' N2 Hx').
      * injection H2' as <-. destruct Hx' as [<-|[]]. exact (Nh h1 l1 H1' N1 Hx).
      * exact (A h1 l1 h2 l2 H1' H2' Ne x Hx Hx').
    + intros x. rewrite K. destruct (Nat.eq_dec x h) as [->|N]; [|rewrite F by exact N; tauto]. split; intros _; [apply (ring_some m' h []); [exact Rh|left; reflexivity]|apply K; exact H].
  - assert (Ne : ~ In e (h :: l)) by (intros [E|I]; [congruence|exact (H1 h l H I)]).
    destruct (add_lemma m h l e (R h l H)) as (m' & -> & Rh & F & D & _); [apply K; exact H0|exact Ne|]. exists m'. split; [reflexivity|].
    assert (Eh : forall h' l', members s h' = Some l' -> ~ In e (h' :: l')) by (intros h' l' Hl [E|I]; [congruence|exact (H1 h' l' Hl I)]).
    split; cbn [members known].
    + intros h' l'. unfold set_members. destruct (Nat.eqb_spec h' h) as [->|N]; [intros [= <-]; exact Rh|]. intros Hl. apply (ring_same m); [auto|].
      intros x Hx. apply F; intros ->; [exact (Eh h' l' Hl Hx)|exact (A h' l' h l Hl H N h Hx (or_introl eq_refl))|exact (A h' l' h l Hl H N _ Hx (last_in h l))].
    + intros h1 l1 h2 l2. unfold set_members. destruct (Nat.eqb_spec h1 h) as [->|N1], (Nat.eqb_spec h2 h) as [->|N2]; intros H1' H2' Nn x Hx Hx'; try contradiction.
      * injection H1' as <-. rewrite app_comm_cons in Hx. apply in_app_or in Hx as [Hx|[<-|[]]]; [exact (A h l h2 l2 H H2' Nn x Hx Hx')|exact (Eh h2 l2 H2' Hx')].
      * injection H2' as <-. rewrite app_comm_cons in Hx'. apply in_app_or in Hx' as [Hx'|[<-|[]]]; [exact (A h1 l1 h l H1' H Nn x Hx Hx')|exact (Eh h1 l1 H1' Hx)].
      * exact (A h1 l1 h2 l2 H1' H2' Nn x Hx Hx').
    + intros x. rewrite K, D. tauto.
  - destruct (del_lemma m h l1 e l2 (R h _ H)) as (m' & -> & Rh & F & D). exists m'. split; [reflexivity|].
    assert (Sub : forall x, In x (h :: l1 ++ l2) -> In x (h :: l1 ++ e :: l2)).
    { intros x [->|I]; [left; reflexivity|]. right. apply in_app_or in I as [I|I]; apply in_or_app; [left; exact I|right; right; exact I]. }
    split; cbn [members known].
    + intros h' l'. unfold set_members. destruct (Nat.eqb_spec h' h) as [->|N]; [intros [= <-]; exact Rh|]. intros Hl. apply (ring_same m); [auto|].
      intros x Hx. apply F; intros ->; refine (A h' l' h _ Hl H N _ Hx _); apply Sub.
      * destruct (last_in h l1) as [E|I]; [rewrite <- E; left; reflexivity|right; apply in_or_app; left; exact I].
      * destruct (hd_in h l2) as [E|I]; [rewrite <- E; left; reflexivity|right; apply in_or_app; right; exact I].
    + intros h1 k1 h2 k2. unfold set_members. destruct (Nat.eqb_spec h1 h) as [->|N1], (Nat.eqb_spec h2 h) as [->|N2]; intros H1' H2' Nn x Hx Hx'; try contradiction.
      * injection H1' as <-. exact (A h _ h2 k2 H H2' Nn x (Sub x Hx) Hx').
      * injection H2' as <-. exact (A h1 k1 h _ H1' H Nn x Hx (Sub x Hx')).
      * exact (A h1 k1 h2 k2 H1' H2' Nn x Hx Hx').
    + intros x. rewrite K, D. tauto.
Qed.
Lemma runs_lemma : forall s os s', calls s os s' -> forall m, good m s -> exists m', run m os = Ok m' /\ good m' s'.
Proof.
  induction 1; intros m G; cbn [run]; [exists m; auto|]. destruct (step_lemma m s o s' G H) as (m1 & -> & G1). cbn [obind]. apply IHcalls. exact G1.
Qed.
Lemma good_start : good (fun _ => None) no_lists.
Proof. split; cbn; [discriminate|discriminate|]. intros x. split; [intros []|congruence]. Qed.
Lemma history_lemma os s : calls no_lists os s -> exists m, run (fun _ => None) os = Ok m /\ forall h l, members s h = Some l ->
  list_is_empty m h = Ok (match l with [] => true | _ => false end)
  /\ (forall fuel, length l < fuel -> iterate fuel m h = Ok (Some l) /\ iterate_back fuel m h = Ok (Some (rev l)) /\ ((N.of_nat (length l) < 2 ^ 32)%N -> list_get_size fuel m h = Ok (Some (N.of_nat (length l))))).
Proof.
  intros H. destruct (runs_lemma _ _ _ H _ good_start) as (m & E & G). exists m. split; [exact E|]. intros h l Hl. pose proof (g_ring _ _ G h l Hl) as R.
  split; [apply ring_empty; exact R|]. intros fuel Lf. destruct (ring_walk m h l fuel R Lf) as [W1 W2]. split; [exact W1|]. split; [exact W2|].
  intros B. unfold list_get_size. rewrite W1. cbn [obind option_map]. unfold wrap32. rewrite N.mod_small by exact B. reflexivity.
Qed.
