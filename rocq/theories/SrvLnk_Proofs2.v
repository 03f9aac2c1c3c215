From Verif Require Import Base List_Model List_Proofs SrvLnk_Model SrvLnk_Spec SrvLnk_Proofs.
Local Open Scope nat_scope.

Definition with_grp (w : world) (g : loc) (x : option (bytes * list loc)) : world := World (put (w_grps w) g x) (w_links w).
Definition with_link (w : world) (a : loc) (x : option attrs) : world := World (w_grps w) (put (w_links w) a x).
Lemma with_grp_re w g x : regroup w (with_grp w g x) g x /\ same_links w (with_grp w g x).
Proof. split; [split|]; cbn; [apply put_same|intros y N; apply put_other; exact N|intros y; reflexivity]. Qed.
Lemma with_link_re w a x : same_grps w (with_link w a x) /\ w_links (with_link w a x) a = x /\ (forall y, y <> a -> w_links (with_link w a x) y = w_links w y).
Proof. split; [intros y; reflexivity|]. split; cbn; [apply put_same|intros y N; apply put_other; exact N]. Qed.
Lemma regroup_some w w' g n l1 a l2 x h : w_grps w g = Some (n, l1 ++ a :: l2) -> regroup w w' g (Some (n, l1 ++ l2)) -> grouped w' x h -> grouped w x h.
Proof.
  intros Hg [Gg Go] (n0 & l0 & H & I). destruct (Nat.eq_dec h g) as [->|N]; [|exists n0, l0; rewrite <- (Go h N); auto]. rewrite Gg in H. injection H as <- <-.
  exists n, (l1 ++ a :: l2). split; [exact Hg|]. apply in_app_or in I as [I|I]; apply in_or_app; [left; exact I|right; right; exact I].
Qed.
Lemma regroup_lonely s w w' g n l1 a l2 : rep s w -> w_grps w g = Some (n, l1 ++ a :: l2) -> regroup w w' g (Some (n, l1 ++ l2)) -> lonely w' a.
Proof.
  intros R Hg Re h Hh. assert (Ga : grouped w a g) by (exists n, (l1 ++ a :: l2); split; [exact Hg|apply in_or_app; right; left; reflexivity]).
  assert (h = g) by (eapply grouped_one; [exact R|eapply regroup_some; eassumption|exact Ga]). subst h. destruct Hh as (n0 & l0 & H & I). rewrite (proj1 Re) in H. injection H as <- <-.
  pose proof (proj2 (r_ring s w R g _ _ Hg)) as Nd. apply NoDup_cons_iff in Nd as [_ Nd]. apply NoDup_remove_2 in Nd. contradiction.
Qed.
Lemma del_ok s w w' g a n l1 l2 : rep s w -> w_grps w g = Some (n, l1 ++ a :: l2) -> same_links w w' -> regroup w w' g (Some (n, l1 ++ l2)) -> exists s', grp_del s g a = Ok (s', 0%Z) /\ rep s' w'.
Proof.
  intros R Hg L Re. assert (Ga : grouped w a g) by (exists n, (l1 ++ a :: l2); split; [exact Hg|apply in_or_app; right; left; reflexivity]).
  destruct (links_some s w a R (r_member s w R a g Ga)) as (k & Ek). unfold grp_del. rewrite Ek. rewrite (proj2 (r_group s w R a k g Ek) Ga). cbn [same_group]. rewrite Nat.eqb_refl. cbn [negb].
  destruct (unlink_lemma s w w' g a n l1 l2 R Hg L Re) as (s' & E & R'). exists s'. split; [|exact R'].
  destruct (list_del (nodes s) a) as [m|]; [|discriminate E]. cbn [obind] in *. rewrite E. reflexivity.
Qed.
Lemma del_other s w g a : rep s w -> w_links w a <> None -> ~ grouped w a g -> grp_del s g a = Ok (s, (- EINVAL)%Z).
Proof.
  intros R Ha Ng. destruct (links_some s w a R Ha) as (k & Ek). unfold grp_del. rewrite Ek. pose proof (r_group s w R a k g Ek) as X. destruct (k_group k) as [h|]; cbn [same_group negb]; [|reflexivity].
  destruct (Nat.eqb_spec h g) as [->|_]; [elim Ng; apply X; reflexivity|reflexivity].
Qed.
Lemma destroy_alone s w w' a : rep s w -> w_links w a <> None -> lonely w a -> same_grps w w' -> w_links w' a = None -> (forall y, y <> a -> w_links w' y = w_links w y) ->
  exists s', link_destroy s a = Ok s' /\ rep s' w'.
Proof.
  intros R Ha Lo G La Lx. destruct (links_some s w a R Ha) as (k & Ek). unfold link_destroy. rewrite Ek.
  assert (Kg : k_group k = None) by (destruct (k_group k) as [g|] eqn:X; [elim (Lo g); apply (r_group s w R a k g Ek); exact X|reflexivity]). rewrite Kg. cbn [obind].
  eexists. split; [reflexivity|]. eapply free_link_lemma; eassumption.
Qed.
Lemma destroy_in s w w' g a n l1 l2 : rep s w -> w_grps w g = Some (n, l1 ++ a :: l2) -> regroup w w' g (Some (n, l1 ++ l2)) -> w_links w' a = None -> (forall y, y <> a -> w_links w' y = w_links w y) ->
  exists s', link_destroy s a = Ok s' /\ rep s' w'.
Proof.
  intros R Hg Re La Lx. assert (Ga : grouped w a g) by (exists n, (l1 ++ a :: l2); split; [exact Hg|apply in_or_app; right; left; reflexivity]).
  destruct (links_some s w a R (r_member s w R a g Ga)) as (k & Ek). unfold link_destroy. rewrite Ek. rewrite (proj2 (r_group s w R a k g Ek) Ga).
  destruct (with_grp_re w g (Some (n, l1 ++ l2))) as [Re1 L1].
  destruct (del_ok s w _ g a n l1 l2 R Hg L1 Re1) as (s1 & -> & R1). cbn [obind]. eexists. split; [reflexivity|].
  eapply free_link_lemma; [exact R1|exact (r_member s w R a g Ga)|exact (regroup_lonely s w _ g n l1 a l2 R Hg Re1)| |exact La|exact Lx].
  intros y. destruct (Nat.eq_dec y g) as [->|N]; [rewrite (proj1 Re), (proj1 Re1); reflexivity|rewrite (proj2 Re y N), (proj2 Re1 y N); reflexivity].
Qed.

(* the loops *)
Lemma ring_next m h pre x l : ring m h (pre ++ x :: l) -> next m x = Ok (hd h l).
Proof.
  intros [L _]. rewrite <- app_assoc in L. cbn [app] in L. rewrite app_comm_cons in L. apply linked_app in L as [_ L]. destruct l; exact (proj1 L).
Qed.
Lemma destroy_loop g n : forall l s w fuel t, rep s w -> w_grps w g = Some (n, l) -> length l < fuel -> next (nodes s) (hd g l) = Ok t ->
  exists s', each_safe fuel (fun s sl => let! m := list_del (nodes s) sl in set_group (Store m (links s) (grps s)) sl None) s (hd g l) t g = Ok (Some s') /\ rep s' (with_grp w g (Some (n, []))).
Proof.
  induction l as [|x l IH]; intros s w fuel t R Hg Lf Nt; (destruct fuel as [|fuel]; [cbn in Lf; lia|]); cbn [each_safe hd].
  - rewrite Nat.eqb_refl. exists s. split; [reflexivity|]. apply (rep_ext s w); [exact R|intros y; reflexivity|]. intros y. cbn. destruct (Nat.eq_dec y g) as [->|N]; [rewrite put_same; auto|apply put_other; exact N].
  - pose proof (r_ring s w R g n _ Hg) as Rg. destruct (Nat.eqb_spec x g) as [->|_]; [destruct Rg as [_ Nd]; apply NoDup_cons_iff in Nd as [Nd _]; elim Nd; left; reflexivity|].
    cbn [hd] in Nt. rewrite (ring_next (nodes s) g [] x l Rg) in Nt. injection Nt as <-.
    destruct (with_grp_re w g (Some (n, l))) as [Re1 L1]. destruct (unlink_lemma s w (with_grp w g (Some (n, l))) g x n [] l R Hg L1 Re1) as (s1 & E & R1). rewrite E. cbn [obind].
    pose proof (r_ring s1 _ R1 g n l (proj1 Re1)) as Rg1.
    assert (Nn : exists t', next (nodes s1) (hd g l) = Ok t') by (destruct l as [|y l]; [eexists; exact (proj1 (ring_ends _ _ _ Rg1))|eexists; exact (ring_next _ g [] y l Rg1)]).
    destruct Nn as (t' & Nn). rewrite Nn. cbn [obind]. destruct (IH s1 _ fuel t' R1 (proj1 Re1)) as (s' & E' & R'); [cbn in Lf; lia|exact Nn|]. exists s'. split; [exact E'|].
    apply (rep_ext s' _ _ R'); [intros y; reflexivity|]. intros y. cbn. destruct (Nat.eq_dec y g) as [->|N]; [rewrite !put_same; reflexivity|rewrite !put_other by exact N; reflexivity].
Qed.
Lemma for_start s w g n l : rep s w -> w_grps w g = Some (n, l) -> next (nodes s) g = Ok (hd g l) /\ exists t, next (nodes s) (hd g l) = Ok t.
Proof.
  intros R Hg. pose proof (r_ring s w R g n l Hg) as Rg. split; [exact (proj1 (ring_ends _ _ _ Rg))|]. destruct l as [|x l]; [eexists; exact (proj1 (ring_ends _ _ _ Rg))|eexists; exact (ring_next _ g [] x l Rg)].
Qed.
Lemma gdestroy_lemma s w w' g n l fuel : rep s w -> w_grps w g = Some (n, l) -> same_links w w' -> regroup w w' g None -> length l < fuel -> exists s', grp_destroy fuel s g = Ok (Some s') /\ rep s' w'.
Proof.
  intros R Hg L Re Lf. destruct (for_start s w g n l R Hg) as (E1 & t & E2). unfold grp_destroy, for_members. rewrite E1. cbn [obind]. rewrite E2. cbn [obind].
  destruct (destroy_loop g n l s w fuel t R Hg Lf E2) as (s1 & -> & R1). cbn [obind]. destruct (with_grp_re w g (Some (n, []))) as [Re1 L1].
  destruct (free_grp_lemma s1 _ w' g n R1 (proj1 Re1)) as (s2 & -> & R2).
  - intros y. rewrite (L y). reflexivity.
  - split; [exact (proj1 Re)|]. intros y N. rewrite (proj2 Re y N), (proj2 Re1 y N). reflexivity.
  - exists s2. split; [reflexivity|exact R2].
Qed.
Lemma destroy_with_loop g n : forall l s w fuel t, rep s w -> w_grps w g = Some (n, l) -> length l < fuel -> next (nodes s) (hd g l) = Ok t ->
  exists s' w', each_safe fuel link_destroy s (hd g l) t g = Ok (Some s') /\ rep s' w' /\ regroup w w' g (Some (n, [])) /\ (forall y, In y l -> w_links w' y = None) /\ (forall y, ~ In y l -> w_links w' y = w_links w y).
Proof.
  induction l as [|x l IH]; intros s w fuel t R Hg Lf Nt; (destruct fuel as [|fuel]; [cbn in Lf; lia|]); cbn [each_safe hd].
  - rewrite Nat.eqb_refl. exists s, w. split; [reflexivity|]. split; [exact R|]. split; [split; [exact Hg|auto]|]. split; [intros y []|auto].
  - pose proof (r_ring s w R g n _ Hg) as Rg. destruct (Nat.eqb_spec x g) as [->|Nx]; [destruct Rg as [_ Nd]; apply NoDup_cons_iff in Nd as [Nd _]; elim Nd; left; reflexivity|].
    cbn [hd] in Nt. rewrite (ring_next (nodes s) g [] x l Rg) in Nt. injection Nt as <-.
    destruct (with_grp_re w g (Some (n, l))) as [Re1 L1]. destruct (with_link_re (with_grp w g (Some (n, l))) x None) as (G2 & La & Lo).
    destruct (destroy_in s w (with_link (with_grp w g (Some (n, l))) x None) g x n [] l R Hg Re1 La Lo) as (s1 & E & R1). rewrite E. cbn [obind].
    assert (Hg1 : w_grps (with_link (with_grp w g (Some (n, l))) x None) g = Some (n, l)) by exact (proj1 Re1).
    pose proof (r_ring s1 _ R1 g n l Hg1) as Rg1.
    destruct (for_start s1 _ g n l R1 Hg1) as (_ & t' & Nn). rewrite Nn. cbn [obind].
    destruct (IH s1 _ fuel t' R1 Hg1) as (s' & w' & E' & R' & Re' & In' & Out'); [cbn in Lf; lia|exact Nn|].
    assert (Nl : ~ In x l) by (destruct Rg as [_ Nd]; apply NoDup_cons_iff in Nd as [_ Nd]; apply NoDup_cons_iff in Nd as [Nd _]; exact Nd).
    exists s', w'. split; [exact E'|]. split; [exact R'|]. split.
    + split; [exact (proj1 Re')|]. intros y N. rewrite (proj2 Re' y N). exact (proj2 Re1 y N).
    + split.
      * intros y [<-|I]; [rewrite Out' by exact Nl; exact La|apply In'; exact I].
      * intros y Ny. rewrite Out' by (intros I; apply Ny; right; exact I). apply (Lo y). intros ->. apply Ny. left. reflexivity.
Qed.
Lemma gdestroy_with_lemma s w w' g n l fuel : rep s w -> w_grps w g = Some (n, l) -> (forall y, In y l -> w_links w' y = None) -> (forall y, ~ In y l -> w_links w' y = w_links w y) ->
  regroup w w' g None -> length l < fuel -> exists s', grp_destroy_with_members fuel s g = Ok (Some s') /\ rep s' w'.
Proof.
  intros R Hg Li Lo Re Lf. destruct (for_start s w g n l R Hg) as (E1 & t & E2). unfold grp_destroy_with_members, for_members. rewrite E1. cbn [obind]. rewrite E2. cbn [obind].
  destruct (destroy_with_loop g n l s w fuel t R Hg Lf E2) as (s1 & w1 & -> & R1 & Re1 & Li1 & Lo1). cbn [obind].
  destruct (free_grp_lemma s1 _ w' g n R1 (proj1 Re1)) as (s2 & -> & R2).
  - intros y. destruct (in_dec Nat.eq_dec y l) as [I|I]; [rewrite (Li y I), (Li1 y I); reflexivity|rewrite (Lo y I), (Lo1 y I); reflexivity].
  - split; [exact (proj1 Re)|]. intros y N. rewrite (proj2 Re y N), (proj2 Re1 y N). reflexivity.
  - exists s2. split; [reflexivity|exact R2].
Qed.
Lemma cloneable_lemma s w x k : rep s w -> links s x = Some k -> (N.land (k_flags k) FL_CLONEABLE =? 0)%N = negb (cloneable w x).
Proof.
  intros R Ek. unfold cloneable. rewrite <- (r_links s w R x), Ek. cbn [option_map attrs_of]. unfold FL_CLONEABLE. change 1%N with (N.ones 1). rewrite N.land_ones. change (2 ^ 1)%N with 2%N.
  rewrite <- N.bit0_mod. rewrite <- N.bit0_odd. destruct (N.testbit (k_flags k) 0); reflexivity.
Qed.
Lemma filter_ext_links w w' l : (forall x, In x l -> w_links w' x = w_links w x) -> filter (cloneable w') l = filter (cloneable w) l.
Proof. intros H. apply filter_ext_in. intros x Hx. unfold cloneable. rewrite H by exact Hx. reflexivity. Qed.
Lemma Forall2_in_l {A B} (P Q : A -> B -> Prop) l m : (forall x y, In x l -> P x y -> Q x y) -> Forall2 P l m -> Forall2 Q l m.
Proof. intros H F. induction F; constructor; [apply H; [left; reflexivity|assumption]|apply IHF; intros; apply H; [right|]; assumption]. Qed.
Lemma firstn_in {A} n (l : list A) x : In x (firstn n l) -> In x l.
Proof. intros I. rewrite <- (firstn_skipn n l). apply in_or_app. left. exact I. Qed.
Lemma clone_loop_lemma g n c cn : forall l pre s w fuel done places, rep s w -> w_grps w g = Some (n, pre ++ l) -> w_grps w c = Some (cn, done) -> g <> c -> NoDup places -> (forall p, In p places -> ~ live w p) -> length l < fuel ->
  exists s' w' ps, clone_loop fuel s (hd g l) g c places = Ok (Some (s', length (filter (cloneable w) l) <=? length places)) /\ rep s' w' /\ ps = firstn (length (filter (cloneable w) l)) places
    /\ regroup w w' c (Some (cn, done ++ ps)) /\ Forall2 (fun y p => w_links w' p = w_links w y) (firstn (length ps) (filter (cloneable w) l)) ps /\ (forall y, ~ In y ps -> w_links w' y = w_links w y).
Proof.
  induction l as [|x l IH]; intros pre s w fuel done places R Hg Hc Ngc Nd Fr Lf; (destruct fuel as [|fuel]; [cbn in Lf; lia|]); cbn [clone_loop hd].
  - rewrite Nat.eqb_refl. exists s, w, []. split; [reflexivity|]. split; [exact R|]. split; [reflexivity|]. rewrite app_nil_r. split; [split; [exact Hc|auto]|]. split; [constructor|auto].
  - pose proof (r_ring s w R g n _ Hg) as Rg. assert (Gx : grouped w x g) by (exists n, (pre ++ x :: l); split; [exact Hg|apply in_or_app; right; left; reflexivity]).
    destruct (Nat.eqb_spec x g) as [->|Nx].
    { destruct Rg as [_ Ndg]. apply NoDup_cons_iff in Ndg as [Ndg _]. elim Ndg. apply in_or_app. right. left. reflexivity. }
    destruct (links_some s w x R (r_member s w R x g Gx)) as (k & Ek). rewrite Ek, (cloneable_lemma s w x k R Ek). cbn [filter]. destruct (cloneable w x) eqn:Ec; cbn [negb].
    + destruct places as [|a places].
      * exists s, w, []. split; [reflexivity|]. split; [exact R|]. split; [reflexivity|]. rewrite app_nil_r. split; [split; [exact Hc|auto]|]. split; [constructor|auto].
      * assert (Na : ~ live w a) by (apply Fr; left; reflexivity). pose proof (proj1 (not_live w a) Na) as [Nag Nak].
        unfold link_clone. rewrite Ek. destruct (with_link_re w a (Some (attrs_of k))) as (G1 & La & Lo).
        destruct (create_lemma s w (with_link w a (Some (attrs_of k))) a (k_name k) (k_type k) (k_notif k) (k_flags k) (k_data k) R Na G1 La Lo) as (s1 & -> & R1 & _). cbn [obind].
        destruct (with_grp_re (with_link w a (Some (attrs_of k))) c (Some (cn, done ++ [a]))) as [Re2 L2].
        destruct (add_grp_lemma s1 _ (with_grp (with_link w a (Some (attrs_of k))) c (Some (cn, done ++ [a]))) c a cn done R1) as (s2 & -> & R2);
          [exact Hc|rewrite La; discriminate| |exact L2|exact Re2|].
        { intros h (n0 & l0 & H0 & I0). elim (r_member s w R a h); [exists n0, l0; auto|exact Nak]. }
        cbn [obind]. set (w2 := with_grp (with_link w a (Some (attrs_of k))) c (Some (cn, done ++ [a]))) in *.
        assert (Hg2 : w_grps w2 g = Some (n, pre ++ x :: l)) by (rewrite (proj2 Re2 g Ngc); exact Hg).
        rewrite (ring_next (nodes s2) g pre x l (r_ring s2 w2 R2 g n _ Hg2)). cbn [obind].
        assert (Lk : forall y, y <> a -> w_links w2 y = w_links w y) by (intros y N; rewrite (L2 y); apply Lo; exact N).
        assert (Fl : filter (cloneable w2) l = filter (cloneable w) l).
        { apply filter_ext_links. intros y Hy. apply Lk. intros ->. apply (r_member s w R a g); [|exact Nak]. exists n, (pre ++ x :: l). split; [exact Hg|]. apply in_or_app. right. right. exact Hy. }
        apply NoDup_cons_iff in Nd as [Nda Nd].
        destruct (IH (pre ++ [x]) s2 w2 fuel (done ++ [a]) places R2) as (s' & w' & ps & E' & R' & Eps & Re' & F2 & Lo');
          [rewrite <- app_assoc; exact Hg2|exact (proj1 Re2)|exact Ngc|exact Nd| |cbn in Lf; lia|].
        { intros p Hp Lv. apply (Fr p (or_intror Hp)). destruct Lv as [Lv|Lv].
          - left. intros X. apply Lv. destruct (Nat.eq_dec p c) as [->|N]; [congruence|]. rewrite (proj2 Re2 p N). exact X.
          - right. rewrite <- Lk; [exact Lv|]. intros ->. contradiction. }
        rewrite Fl in *. exists s', w', (a :: ps). cbn [length]. split; [exact E'|]. split; [exact R'|]. split; [cbn [firstn]; rewrite Eps; reflexivity|]. split; [|split].
        -- split; [rewrite (proj1 Re'), <- app_assoc; reflexivity|]. intros y N. rewrite (proj2 Re' y N), (proj2 Re2 y N). reflexivity.
        -- assert (Np : ~ In a ps) by (rewrite Eps; intros I; apply Nda; rewrite <- (firstn_skipn (length (filter (cloneable w) l)) places); apply in_or_app; left; exact I).
           cbn [firstn]. constructor; [rewrite Lo' by exact Np; rewrite (L2 a), La, <- (r_links s w R x), Ek; reflexivity|].
           eapply Forall2_in_l; [|exact F2]. intros y p Hy E. rewrite E. apply Lk. intros ->. apply (r_member s w R a g); [|exact Nak]. exists n, (pre ++ x :: l). split; [exact Hg|]. apply in_or_app. right. right.
           apply firstn_in in Hy. apply filter_In in Hy as [Hy _]. exact Hy.
        -- intros y Ny. rewrite Lo' by (intros I; apply Ny; right; exact I). apply Lk. intros ->. apply Ny. left. reflexivity.
    + rewrite (ring_next (nodes s) g pre x l Rg). cbn [obind].
      destruct (IH (pre ++ [x]) s w fuel done places R) as (s' & w' & ps & H); [rewrite <- app_assoc; exact Hg|exact Hc|exact Ngc|exact Nd|exact Fr|cbn in Lf; lia|].
      exists s', w', ps. exact H.
Qed.

Lemma gclone_lemma s w g c cn n l places fuel : rep s w -> w_grps w g = Some (n, l) -> NoDup (c :: places) -> (forall p, In p (c :: places) -> ~ live w p) -> length l < fuel -> length places < fuel ->
  exists s', grp_clone fuel s g c cn places = Ok (Some (s', length (filter (cloneable w) l) <=? length places))
    /\ forall w', (if length (filter (cloneable w) l) <=? length places
         then regroup w w' c (Some (cn, firstn (length (filter (cloneable w) l)) places))
              /\ Forall2 (fun y p => w_links w' p = w_links w y) (filter (cloneable w) l) (firstn (length (filter (cloneable w) l)) places)
              /\ (forall y, ~ In y (firstn (length (filter (cloneable w) l)) places) -> w_links w' y = w_links w y)
         else same_links w w' /\ same_grps w w') -> rep s' w'.
Proof.
  intros R Hg Nd Fr Lf Lp. assert (Nc : ~ live w c) by (apply Fr; left; reflexivity). pose proof (proj1 (not_live w c) Nc) as [Ncg Nck].
  assert (Ngc : g <> c) by (intros ->; congruence). apply NoDup_cons_iff in Nd as [Ndc Nd].
  destruct (with_grp_re w c (Some (cn, []))) as [Re1 L1]. unfold grp_clone.
  destruct (gcreate_lemma s w _ c cn R Nc L1 Re1) as (s1 & -> & R1). cbn [obind]. set (w1 := with_grp w c (Some (cn, []))) in *.
  assert (Hg1 : w_grps w1 g = Some (n, l)) by (rewrite (proj2 Re1 g Ngc); exact Hg).
  destruct (for_start s1 w1 g n l R1 Hg1) as (E1 & _). rewrite E1. cbn [obind].
  assert (Fl : filter (cloneable w1) l = filter (cloneable w) l) by (apply filter_ext_links; intros y _; exact (L1 y)).
  destruct (clone_loop_lemma g n c cn l [] s1 w1 fuel [] places R1 Hg1 (proj1 Re1) Ngc Nd) as (s2 & w2 & ps & E2 & R2 & Eps & Re2 & F2 & Lo2); [|exact Lf|].
  { intros p Hp [Lv|Lv]; apply (Fr p (or_intror Hp)); [left|right; exact Lv]. rewrite <- (proj2 Re1 p); [exact Lv|]. intros ->. contradiction. }
  cbn [app] in *. rewrite Fl in *. rewrite E2. cbn [obind]. destruct (Nat.leb_spec (length (filter (cloneable w) l)) (length places)) as [Le|Gt].
  - exists s2. split; [reflexivity|]. intros w' (Re' & F' & Lo'). rewrite <- Eps in *. apply (rep_ext s2 w2 w' R2).
    + intros y. destruct (in_dec Nat.eq_dec y ps) as [I|I]; [|rewrite (Lo' y I), (Lo2 y I); reflexivity].
      assert (El : length ps = length (filter (cloneable w) l)) by (rewrite Eps; apply firstn_length_le; exact Le). rewrite El, firstn_all in F2.
      clear - F2 F' I L1. induction F2 as [|u v lu lv E2 F2 IHF2]; [destruct I|]. inversion F' as [|? ? ? ? E' F'' ]; subst. destruct I as [<-|I]; [rewrite E', E2; symmetry; exact (L1 u)|apply IHF2; assumption].
    + intros y. destruct (Nat.eq_dec y c) as [->|N]; [rewrite (proj1 Re'), (proj1 Re2); reflexivity|rewrite (proj2 Re' y N), (proj2 Re2 y N), (proj2 Re1 y N); reflexivity].
  - assert (Ep : ps = places) by (rewrite Eps; apply firstn_all2; lia). clear Eps. subst ps.
    destruct (with_grp_re w c None) as [Re3 L3].
    destruct (gdestroy_with_lemma s2 w2 w c cn places fuel R2 (proj1 Re2)) as (s3 & -> & R3).
    + intros y I. apply (not_live w y). apply Fr. right. exact I.
    + intros y I. rewrite (Lo2 y I). reflexivity.
    + split; [exact Ncg|]. intros y N. rewrite (proj2 Re2 y N), (proj2 Re1 y N). reflexivity.
    + exact Lp.
    + exists s3. split; [reflexivity|]. intros w' (L' & G'). exact (rep_ext s3 w w' R3 L' G').
Qed.
Lemma merge_none_lemma s w w' d c m fuel : rep s w -> w_grps w c = Some (m, []) -> same_links w w' -> regroup w w' c None -> 0 < fuel -> exists s', grp_merge fuel s d c = Ok (Some s') /\ rep s' w'.
Proof.
  intros R Hc L Re Lf. destruct (for_start s w c m [] R Hc) as (E1 & t & E2). cbn [hd] in *. unfold grp_merge, for_members. rewrite E1. cbn [obind]. rewrite E2. cbn [obind].
  destruct fuel as [|fuel]; [lia|]. cbn [each_safe]. rewrite Nat.eqb_refl. cbn [obind]. exact (gdestroy_lemma s w w' c m [] (S fuel) R Hc L Re ltac:(cbn; lia)).
Qed.

(* histories *)
Lemma step_lemma w o w' : lcall w o w' -> exists F, forall s fuel, rep s w -> F <= fuel -> exists s', step fuel s o = Ok (Some s') /\ rep s' w'.
Proof.
  intros C. destruct C as [w w' a n t no f d Na G La Lo|w w' a Ha Lo G La Lx|w w' a g n l1 l2 Hg Re La Lx|w w' g n Ng L Re|w w' g a n l Hg Ha Lo L Re|w w' g a n l1 l2 Hg L Re|w w' g a Ha Ng L G|w w' g n l Hg L Re
    |w w' g n l Hg Li Lo Re|w w' g c cn n l ps qs Hg Nd Fr El Re F Lo|w w' g c cn n l ps Hg Nd Fr Lt L G|w w' d c n m l Hd Hc N L Re]; unfold step.
  - exists 0. intros s fuel R _. destruct (create_lemma s w w' a n t no f d R Na G La Lo) as (s' & E & R' & _). exists s'. rewrite E. auto.
  - exists 0. intros s fuel R _. destruct (destroy_alone s w w' a R Ha Lo G La Lx) as (s' & E & R'). exists s'. rewrite E. auto.
  - exists 0. intros s fuel R _. destruct (destroy_in s w w' g a n l1 l2 R Hg Re La Lx) as (s' & E & R'). exists s'. rewrite E. auto.
  - exists 0. intros s fuel R _. destruct (gcreate_lemma s w w' g n R Ng L Re) as (s' & E & R'). exists s'. rewrite E. auto.
  - exists 0. intros s fuel R _. destruct (add_grp_lemma s w w' g a n l R Hg Ha Lo L Re) as (s' & E & R'). exists s'. rewrite E. auto.
  - exists 0. intros s fuel R _. destruct (del_ok s w w' g a n l1 l2 R Hg L Re) as (s' & E & R'). exists s'. rewrite E. auto.
  - exists 0. intros s fuel R _. exists s. rewrite (del_other s w g a R Ha Ng). split; [auto|]. exact (rep_ext s w w' R L G).
  - exists (S (length l)). intros s fuel R Lf. exact (gdestroy_lemma s w w' g n l fuel R Hg L Re ltac:(lia)).
  - exists (S (length l)). intros s fuel R Lf. exact (gdestroy_with_lemma s w w' g n l fuel R Hg Li Lo Re ltac:(lia)).
  - exists (S (length l + length (ps ++ qs))). intros s fuel R Lf. destruct (gclone_lemma s w g c cn n l (ps ++ qs) fuel R Hg Nd Fr ltac:(lia) ltac:(lia)) as (s' & -> & H). exists s'. split; [reflexivity|].
    apply H. rewrite <- El, app_length. destruct (Nat.leb_spec (length ps) (length ps + length qs)) as [_|X]; [|lia]. rewrite firstn_app, firstn_all, Nat.sub_diag. cbn [firstn]. rewrite app_nil_r. auto.
  - exists (S (length l + length ps)). intros s fuel R Lf. destruct (gclone_lemma s w g c cn n l ps fuel R Hg Nd Fr ltac:(lia) ltac:(lia)) as (s' & -> & H). exists s'. split; [reflexivity|].
    apply H. destruct (Nat.leb_spec (length (filter (cloneable w) l)) (length ps)) as [X|_]; [lia|]. auto.
  - exists 1. intros s fuel R Lf. exact (merge_none_lemma s w w' d c m fuel R Hc L Re ltac:(lia)).
Qed.
Lemma steps_lemma w os w' : lcalls w os w' -> exists F, forall s fuel, rep s w -> F <= fuel -> exists s', steps fuel s os = Ok (Some s') /\ rep s' w'.
Proof.
  induction 1 as [w|w o w1 os w2 C _ (F & IH)].
  - exists 0. intros s fuel R _. exists s. auto.
  - destruct (step_lemma w o w1 C) as (F1 & H1). exists (max F1 F). intros s fuel R Lf. cbn [steps]. destruct (H1 s fuel R ltac:(lia)) as (s1 & -> & R1). cbn [obind]. exact (IH s1 fuel R1 ltac:(lia)).
Qed.
Lemma rep_shows s w : rep s w -> shows s w.
Proof.
  intros R. split; [|split; [|split; [|split]]].
  - intros g n l Hg. split; [rewrite (r_grps s w R g), Hg; reflexivity|]. intros fuel Lf. exact (ring_walk (nodes s) g l fuel (r_ring s w R g n l Hg) Lf).
  - intros x a Ha. destruct (links_some s w x R ltac:(congruence)) as (k & Ek). exists k. split; [exact Ek|]. split; [|exact (r_group s w R x k) || (intros g; exact (r_group s w R x k g Ek))].
    pose proof (r_links s w R x) as X. rewrite Ek, Ha in X. injection X as X. exact X.
  - intros g Hg. rewrite (r_grps s w R g), Hg. reflexivity.
  - intros x Hx. exact (links_none s w x R Hx).
  - intros x. pose proof (r_nodes s w R x) as X. split; intros H; [intros Lv|]; tauto.
Qed.
Lemma no_rep : rep no_store no_world.
Proof.
  constructor; cbn.
  - intros; discriminate.
  - intros; discriminate.
  - reflexivity.
  - intros; discriminate.
  - reflexivity.
  - intros x g (n & l & H & _). discriminate H.
  - intros g H. contradiction.
  - intros x. split; [|reflexivity]. intros _ [H|H]; cbn in H; contradiction.
Qed.
Lemma history_lemma os w : lcalls no_world os w -> exists F, forall fuel, F <= fuel -> exists s, steps fuel no_store os = Ok (Some s) /\ shows s w.
Proof.
  intros C. destruct (steps_lemma _ _ _ C) as (F & H). exists F. intros fuel Lf. destruct (H no_store fuel no_rep Lf) as (s & E & R). exists s. split; [exact E|exact (rep_shows s w R)].
Qed.
Lemma del_result_lemma os w g a : lcalls no_world os w -> w_links w a <> None -> exists F, forall fuel, F <= fuel -> exists s s' r, steps fuel no_store os = Ok (Some s) /\ grp_del s g a = Ok (s', r)
  /\ (grouped w a g -> r = 0%Z) /\ (~ grouped w a g -> r = (- EINVAL)%Z).
Proof.
  intros C Ha. destruct (steps_lemma _ _ _ C) as (F & H). exists F. intros fuel Lf. destruct (H no_store fuel no_rep Lf) as (s & E & R). exists s. 
  destruct (links_some s w a R Ha) as (k & Ek). pose proof (r_group s w R a k g Ek) as X.
  destruct (same_group (k_group k) (Some g)) eqn:Sg.
  - destruct (k_group k) as [h|] eqn:Kg; [|discriminate Sg]. cbn [same_group] in Sg. apply Nat.eqb_eq in Sg. subst h. pose proof (proj1 X eq_refl) as Ga. destruct Ga as (n & l & Hg & I). apply in_split in I as (l1 & l2 & ->).
    destruct (with_grp_re w g (Some (n, l1 ++ l2))) as [Re L]. destruct (del_ok s w _ g a n l1 l2 R Hg L Re) as (s' & E' & _). exists s', 0%Z. split; [exact E|]. split; [exact E'|]. split; [reflexivity|].
    intros N. elim N. apply X. reflexivity.
  - assert (Ng : ~ grouped w a g) by (intros Ga; apply X in Ga; rewrite Ga in Sg; cbn [same_group] in Sg; rewrite Nat.eqb_refl in Sg; discriminate Sg).
    exists s, (- EINVAL)%Z. split; [exact E|]. split; [exact (del_other s w g a R Ha Ng)|]. split; [contradiction|reflexivity].
Qed.
Lemma clone_result_lemma os w g c cn n l places : lcalls no_world os w -> w_grps w g = Some (n, l) -> NoDup (c :: places) -> (forall p, In p (c :: places) -> ~ live w p) ->
  exists F, forall fuel, F <= fuel -> exists s s' b, steps fuel no_store os = Ok (Some s) /\ grp_clone fuel s g c cn places = Ok (Some (s', b)) /\ (b = true <-> length (filter (cloneable w) l) <= length places).
Proof.
  intros C Hg Nd Fr. destruct (steps_lemma _ _ _ C) as (F & H). exists (max F (S (length l + length places))). intros fuel Lf. destruct (H no_store fuel no_rep ltac:(lia)) as (s & E & R). exists s.
  destruct (gclone_lemma s w g c cn n l places fuel R Hg Nd Fr ltac:(lia) ltac:(lia)) as (s' & E' & _). eexists s', _. split; [exact E|]. split; [exact E'|]. apply Nat.leb_le.
Qed.

(* merging a group that has members *)
Lemma merge_loop d c pre0 : forall l pre s fuel t, ring (nodes s) d (pre0 ++ pre) -> linked (nodes s) (l ++ [c]) -> NoDup (c :: d :: (pre0 ++ pre) ++ l) -> (forall x, In x (c :: l) -> nodes s x <> None) ->
  (forall x, In x (pre ++ l) -> links s x <> None) -> links s d = None -> length l < fuel -> next (nodes s) (hd c l) = Ok t ->
  exists s', each_safe fuel (fun s sl => grp_add s d sl) s (hd c l) t c = Ok (Some s') /\ ring (nodes s') d ((pre0 ++ pre) ++ l) /\ nodes s' c = nodes s c /\ (forall x, In x (pre ++ l) -> links s' x <> None) /\ links s' d = None.
Proof.
  induction l as [|x l IH]; intros pre s fuel t R Lk Nd Nn Ll Ld Lf Et; (destruct fuel as [|fuel]; [cbn in Lf; lia|]); cbn [each_safe hd].
  - rewrite Nat.eqb_refl. exists s. rewrite !app_nil_r in *. auto.
  - assert (Nxc : x <> c). { intros ->. apply NoDup_cons_iff in Nd as [Nd _]. apply Nd. right. apply in_or_app. right. left. reflexivity. }
    destruct (Nat.eqb_spec x c) as [X|_]; [contradiction|]. cbn [hd] in Et.
    assert (Nd2 : NoDup (d :: (pre0 ++ pre) ++ x :: l)) by (apply NoDup_cons_iff in Nd as [_ Nd]; exact Nd).
    assert (Ni : ~ In x (d :: pre0 ++ pre)).
    { rewrite app_comm_cons in Nd2. apply NoDup_remove_2 in Nd2. intros I. apply Nd2. apply in_or_app. left. exact I. }
    destruct (add_lemma (nodes s) d (pre0 ++ pre) x R (Nn x (or_intror (or_introl eq_refl))) Ni) as (m & Em & Rm & Fm & Dm & _).
    assert (Keep : forall y, In y (c :: l) -> m y = nodes s y).
    { assert (Nd3 : NoDup (c :: d :: (pre0 ++ pre) ++ x :: l)) by exact Nd. intros y Hy. 
      assert (Yx : y <> x).
      { intros ->. destruct Hy as [Hy|Hy]; [congruence|]. rewrite app_comm_cons in Nd2. apply NoDup_remove_2 in Nd2. apply Nd2. apply in_or_app. right. exact Hy. }
      assert (Yd : ~ In y (d :: pre0 ++ pre)).
      { intros I. destruct Hy as [<-|Hy].
        - apply NoDup_cons_iff in Nd3 as [N3 _]. apply N3. rewrite app_comm_cons. apply in_or_app. left. exact I.
        - rewrite app_comm_cons in Nd2. clear - Nd2 I Hy. induction (d :: pre0 ++ pre) as [|z q IHq]; [destruct I|]. cbn [app] in Nd2. apply NoDup_cons_iff in Nd2 as [Nz Nq]. destruct I as [->|I]; [apply Nz; apply in_or_app; right; right; exact Hy|exact (IHq Nq I)]. }
      apply Fm; [exact Yx|intros ->; apply Yd; left; reflexivity|intros ->; apply Yd; apply last_in]. }
    unfold grp_add at 1. rewrite Em. cbn [obind]. unfold set_group. cbn [links nodes grps].
    destruct (links s x) as [k|] eqn:Ek; [|elim (Ll x); [apply in_or_app; right; left; reflexivity|exact Ek]]. cbn [obind nodes].
    assert (Et' : t = hd c l). { destruct l as [|y l]; cbn [app linked] in Lk; destruct Lk as (E0 & _); rewrite E0 in Et; injection Et as <-; reflexivity. }
    subst t.
    assert (Nt : exists t', next m (hd c l) = Ok t').
    { assert (Hn : m (hd c l) <> None) by (intros X; apply Dm in X; revert X; apply Nn; destruct l; [left; reflexivity|right; right; left; reflexivity]). unfold next. destruct (m (hd c l)) as [[? ?]|]; [eexists; reflexivity|contradiction]. }
    destruct Nt as (t' & Nt). rewrite Nt. cbn [obind].
    destruct (IH (pre ++ [x]) (Store m (put (links s) x (Some (Link (Some d) (k_name k) (k_type k) (k_notif k) (k_flags k) (k_data k)))) (grps s)) fuel t') as (s' & E' & R' & C' & L' & D'); cbn [nodes links].
    + rewrite app_assoc. exact Rm.
    + assert (Lk' : linked (nodes s) (l ++ [c])) by (destruct l as [|y l]; cbn [app linked] in Lk; [exact I|exact (proj2 (proj2 Lk))]).
      assert (Sub : forall y, In y (l ++ [c]) -> In y (c :: l)) by (intros y Hy; apply in_app_or in Hy as [Hy|[<-|[]]]; [right; exact Hy|left; reflexivity]).
      apply (linked_frame (nodes s)); [exact Lk'| |]; intros y Hy; unfold next, prev; (rewrite Keep; [reflexivity|]); apply Sub.
      * rewrite removelast_last in Hy. apply in_or_app. left. exact Hy.
      * destruct (l ++ [c]); [destruct Hy|right; exact Hy].
    + rewrite app_assoc, <- (app_assoc (pre0 ++ pre)). exact Nd.
    + intros y Hy X. apply Dm in X. revert X. apply Nn. destruct Hy as [<-|Hy]; [left; reflexivity|right; right; exact Hy].
    + intros y Hy. rewrite <- app_assoc in Hy. unfold put. destruct (Nat.eqb_spec y x); [discriminate|]. apply Ll. exact Hy.
    + rewrite put_other; [exact Ld|]. intros <-. apply Ni. left. reflexivity.
    + cbn in Lf. lia.
    + exact Nt.
    + exists s'. split; [exact E'|]. rewrite app_assoc, <- (app_assoc (pre0 ++ pre)) in R'. split; [exact R'|]. cbn [nodes] in C'. rewrite Keep in C' by (left; reflexivity). split; [exact C'|].
      split; [|exact D']. intros y Hy. apply L'. rewrite <- app_assoc. exact Hy.
Qed.
Lemma destroy_stuck d c : forall l pre s fuel t, ring (nodes s) d (pre ++ l) -> ~ In c (d :: l) -> (forall x, In x l -> links s x <> None) -> links s d = None -> length l < fuel -> next (nodes s) (hd d l) = Ok t ->
  each_safe fuel (fun s sl => let! m := list_del (nodes s) sl in set_group (Store m (links s) (grps s)) sl None) s (hd d l) t c = UB.
Proof.
  induction l as [|x l IH]; intros pre s fuel t R Nc Ll Ld Lf Et; (destruct fuel as [|fuel]; [cbn in Lf; lia|]); cbn [each_safe hd].
  - destruct (Nat.eqb_spec d c) as [->|_]; [elim Nc; left; reflexivity|]. destruct (list_del (nodes s) d); cbn [obind]; [|reflexivity]. unfold set_group. cbn [links]. rewrite Ld. reflexivity.
  - destruct (Nat.eqb_spec x c) as [->|_]; [elim Nc; right; left; reflexivity|]. destruct (del_lemma (nodes s) d pre x l R) as (m & -> & Rm & _ & Dm). cbn [obind hd] in *.
    unfold set_group. cbn [links nodes grps]. destruct (links s x) as [k|] eqn:Ek; [|elim (Ll x); [left; reflexivity|exact Ek]]. cbn [obind nodes].
    rewrite (ring_next (nodes s) d pre x l R) in Et. injection Et as <-.
    assert (Nn : exists t', next m (hd d l) = Ok t').
    { destruct l as [|y l]; [|eexists; exact (ring_next m d pre y l Rm)]. cbn [hd]. eexists. exact (proj1 (ring_ends _ _ _ Rm)). }
    destruct Nn as (t' & Nn). rewrite Nn. cbn [obind]. apply (IH pre); cbn [nodes links].
    + exact Rm.
    + intros I. apply Nc. destruct I as [->|I]; [left; reflexivity|right; right; exact I].
    + intros y Hy. unfold put. destruct (Nat.eqb_spec y x); [discriminate|]. apply Ll. right. exact Hy.
    + rewrite put_other; [exact Ld|]. intros <-. destruct R as [_ Nd]. apply NoDup_cons_iff in Nd as [Nd _]. apply Nd. apply in_or_app. right. left. reflexivity.
    + cbn in Lf. lia.
    + exact Nn.
Qed.
Lemma merge_lemma s w d c n m l x l' fuel : rep s w -> w_grps w d = Some (n, l) -> w_grps w c = Some (m, x :: l') -> d <> c -> length (x :: l') < fuel -> grp_merge fuel s d c = UB.
Proof.
  intros R Hd Hc N Lf. destruct (for_start s w c m (x :: l') R Hc) as (E1 & t & E2). unfold grp_merge, for_members. rewrite E1. cbn [obind]. rewrite E2. cbn [obind].
  pose proof (r_ring s w R c m _ Hc) as Rc. pose proof (r_ring s w R d n _ Hd) as Rd.
  pose proof (r_apart s w R d n l c m (x :: l') Hd Hc N) as Ap.
  assert (Nd : NoDup (c :: d :: l ++ x :: l')).
  { destruct Rc as [_ Nc]. destruct Rd as [_ Ndd]. apply NoDup_cons_iff in Nc as [Nc1 Nc2].
    apply NoDup_cons; [intros I; rewrite app_comm_cons in I; apply in_app_or in I as [I|I]; [exact (Ap c I (or_introl eq_refl))|contradiction]|].
    rewrite app_comm_cons. assert (Ap' : forall y, In y (d :: l) -> ~ In y (x :: l')) by (intros y Hy I; exact (Ap y Hy (or_intror I))). clear - Ap' Ndd Nc2.
    induction (d :: l) as [|z q IHq]; [exact Nc2|]. cbn [app]. apply NoDup_cons_iff in Ndd as [Nz Nq]. apply NoDup_cons; [intros I; apply in_app_or in I as [I|I]; [contradiction|exact (Ap' z (or_introl eq_refl) I)]|].
    apply IHq; [exact Nq|]. intros y Hy. apply Ap'. right. exact Hy. }
  assert (Ld : links s d = None) by (apply (links_none s w d R); apply (r_kind s w R d); congruence).
  destruct (merge_loop d c l (x :: l') [] s fuel t) as (s1 & E & R1 & C1 & L1 & D1).
  - rewrite app_nil_r. exact Rd.
  - destruct Rc as [Lc _]. exact (proj2 (proj1 (linked_app (nodes s) [c] x (l' ++ [c])) Lc)).
  - rewrite app_nil_r. exact Nd.
  - intros y Hy. exact (ring_nodes s w c m (x :: l') y R Hc Hy).
  - cbn [app]. intros y Hy. pose proof (r_member s w R y c (ex_intro _ m (ex_intro _ (x :: l') (conj Hc Hy)))) as My. destruct (links_some s w y R My) as (k & Ek). congruence.
  - exact Ld.
  - exact Lf.
  - exact E2.
  - rewrite E. cbn [obind]. unfold grp_destroy, for_members. rewrite app_nil_r in R1. cbn [app] in L1.
    assert (Ec : next (nodes s1) c = Ok x) by (unfold next in E1 |- *; rewrite C1; exact E1). rewrite Ec. cbn [obind]. rewrite (ring_next _ _ _ _ _ R1). cbn [obind].
    assert (X : ~ In c (d :: x :: l')).
    { apply NoDup_cons_iff in Nd as [Nd _]. intros [->|I]; [apply Nd; left; reflexivity|]. apply Nd. right. apply in_or_app. right. exact I. }
    pose proof (destroy_stuck d c (x :: l') l s1 fuel (hd d l') R1 X L1 D1 Lf (ring_next _ _ _ _ _ R1)) as St. cbn [hd] in St. rewrite St. reflexivity.
Qed.
Lemma merge_refuted_lemma os w d c n m l x l' : lcalls no_world os w -> w_grps w d = Some (n, l) -> w_grps w c = Some (m, x :: l') -> d <> c ->
  exists F, forall fuel, F <= fuel -> steps fuel no_store (os ++ [GMerge d c]) = UB.
Proof.
  intros C Hd Hc N. destruct (steps_lemma _ _ _ C) as (F & H). exists (max F (S (length (x :: l')))). intros fuel Lf. destruct (H no_store fuel no_rep ltac:(lia)) as (s & E & R).
  assert (App : forall os s0, steps fuel s0 os = Ok (Some s) -> steps fuel s0 (os ++ [GMerge d c]) = step fuel s (GMerge d c) \/ steps fuel s0 (os ++ [GMerge d c]) = (let! r := step fuel s (GMerge d c) in match r with None => Ok None | Some s => Ok (Some s) end)).
  { induction os0 as [|o os0 IH]; intros s0; cbn [steps app]; [intros [= ->]; right; reflexivity|]. destruct (step fuel s0 o) as [[s1|]|]; cbn [obind]; try discriminate. apply IH. }
  unfold step in App. rewrite (merge_lemma s w d c n m l x l' fuel R Hd Hc N ltac:(lia)) in App. destruct (App os no_store E) as [->| ->]; reflexivity.
Qed.
