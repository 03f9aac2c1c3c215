From Verif Require Import Base CmnMem_Model CmnMem_Spec.
Local Open Scope nat_scope.
Ltac sp := repeat match goal with |- _ /\ _ => split end.

Scheme modt_ind4 := Induction for modt Sort Prop
with subt_ind4 := Induction for subt Sort Prop
with dirt_ind4 := Induction for dirt Sort Prop
with mods_ind4 := Induction for mods Sort Prop.
Combined Scheme mod_tree_ind from modt_ind4, subt_ind4, dirt_ind4, mods_ind4.
Scheme lmod_ind3 := Induction for lmod Sort Prop
with lsub_ind3 := Induction for lsub Sort Prop
with lmods_ind3 := Induction for lmods Sort Prop.
Combined Scheme lmod_tree_ind from lmod_ind3, lsub_ind3, lmods_ind3.

Fixpoint objs_m (m : lmod) : list nat := match m with LMod id _ s => objs_s s ++ [id] end
with objs_s (s : lsub) : list nat := match s with L_none => [] | L_sub r l => objs_l l ++ [r] end
with objs_l (l : lmods) : list nat := match l with L_nil => [] | L_cons m l => objs_l l ++ objs_m m end.
Fixpoint keys_m (m : lmod) : list nat := match m with LMod id k s => keys_s s ++ repeat id k end
with keys_s (s : lsub) : list nat := match s with L_none => [] | L_sub r l => keys_l l end
with keys_l (l : lmods) : list nat := match l with L_nil => [] | L_cons m l => keys_l l ++ keys_m m end.
Fixpoint has_m (m : lmod) : bool := match m with LMod id k s => (0 <? k) || has_s s end
with has_s (s : lsub) : bool := match s with L_none => false | L_sub r l => has_l l end
with has_l (l : lmods) : bool := match l with L_nil => false | L_cons m l => has_m m || has_l l end.

Lemma is_live_in h n : is_live h n = true <-> In n (live h).
Proof.
  unfold is_live. rewrite existsb_exists. split.
  - intros (x & I & E). apply Nat.eqb_eq in E. now subst.
  - intros I. exists n. split; [exact I | apply Nat.eqb_refl].
Qed.
Lemma use_ok h n : In n (live h) -> use h n = Ok h.
Proof. intros I. unfold use. apply is_live_in in I. now rewrite I. Qed.
Lemma use_ub h n : ~ In n (live h) -> use h n = UB.
Proof. intros I. unfold use. destruct (is_live h n) eqn:E; [apply is_live_in in E; tauto | reflexivity]. Qed.
Lemma remove1_head n l : remove1 n (n :: l) = l.
Proof. cbn. now rewrite Nat.eqb_refl. Qed.
Lemma remove1_mid n a b : ~ In n a -> remove1 n (a ++ n :: b) = a ++ b.
Proof.
  induction a as [|x a IH]; intros N; cbn [app].
  - apply remove1_head.
  - cbn. destruct (n =? x) eqn:E; [apply Nat.eqb_eq in E; subst; exfalso; apply N; now left|].
    rewrite IH; [reflexivity | intros I; apply N; now right].
Qed.
Lemma free_ok h n a b : live h = a ++ n :: b -> ~ In n a -> free h n = Ok (Heap (a ++ b) (next h) (held h)).
Proof.
  intros E N. unfold free. assert (I : In n (live h)) by (rewrite E; apply in_or_app; right; now left).
  apply is_live_in in I. rewrite I, E, remove1_mid by exact N. reflexivity.
Qed.
Lemma free_head h n b : live h = n :: b -> free h n = Ok (Heap b (next h) (held h)).
Proof. intros E. rewrite (free_ok h n [] b); [reflexivity | exact E | intros []]. Qed.

Definition env (l : list nat) (v : common) (in_block : bool) : Prop :=
  In (v_ctx v) l /\ In (v_kvs v) l /\ In (v_gen v) l /\ In (v_block v) l /\ (in_block = false -> In (v_type v) l).
Lemma env_app a l v b : env l v b -> env (a ++ l) v b.
Proof. intros (A & B & C & D & E). unfold env. sp; try (apply in_or_app; right; assumption). intros X. apply in_or_app. right. auto. Qed.
Lemma touch_ok h v b id reg : env (live h) v b -> In id (live h) -> In reg (live h) -> touch h v b id reg = Ok h.
Proof.
  intros (A & B & C & D & E) I R. unfold touch.
  rewrite (use_ok h (v_ctx v)) by exact A. cbn [obind]. rewrite (use_ok h id) by exact I. cbn [obind].
  rewrite (use_ok h reg) by exact R. cbn [obind]. rewrite (use_ok h (v_block v)) by exact D. cbn [obind].
  destruct b; cbn [obind].
  - rewrite (use_ok h (v_gen v)) by exact C. cbn [obind]. now apply use_ok.
  - rewrite (use_ok h (v_type v)) by auto. cbn [obind]. rewrite (use_ok h (v_gen v)) by exact C. cbn [obind]. now apply use_ok.
Qed.
Lemma repeat_snoc (n : nat) k : repeat n k ++ [n] = n :: repeat n k.
Proof. induction k as [|k IH]; cbn; [reflexivity | now rewrite IH]. Qed.
Lemma times_reserve v b id reg n : forall h, env (live h) v b -> In id (live h) -> In reg (live h) ->
  times n (fun h => reserve h v b id reg) h = Ok (Heap (live h) (next h) (repeat id n ++ held h)).
Proof.
  induction n as [|n IH]; intros h E I R; cbn [times].
  - now destruct h.
  - unfold reserve at 1. rewrite touch_ok by assumption. cbn [obind]. rewrite IH by assumption. cbn [live next held].
    replace (repeat id (S n) ++ held h) with (repeat id n ++ id :: held h); [reflexivity|].
    change (id :: held h) with ([id] ++ held h). rewrite app_assoc, repeat_snoc. reflexivity.
Qed.
Lemma times_unreserve v b id reg n : forall h, env (live h) v b -> In id (live h) -> In reg (live h) ->
  exists k, times n (fun h => unreserve h v b id reg) h = Ok (Heap (live h) (next h) k)
    /\ (forall k', held h = repeat id n ++ k' -> k = k').
Proof.
  induction n as [|n IH]; intros h E I R; cbn [times].
  - exists (held h). split; [now destruct h | intros k' X; exact X].
  - unfold unreserve at 1. rewrite touch_ok by assumption. cbn [obind].
    destruct (IH (Heap (live h) (next h) (remove1 id (held h))) E I R) as (k & X & Y).
    exists k. split; [exact X|]. intros k' Z. apply Y. cbn [held]. rewrite Z. cbn [repeat app]. apply remove1_head.
Qed.

(* What a load gives *)
Definition made (h h' : heap) (o ks : list nat) (clean : bool) : Prop :=
  live h' = o ++ live h /\ next h <= next h' /\ Forall (fun n => next h <= n) o /\ (clean = true -> held h' = ks ++ held h).
Lemma made_refl h c : made h h [] [] c.
Proof. unfold made. sp; auto. Qed.
Lemma made_trans h h1 h2 o1 o2 k1 k2 c1 c2 : made h h1 o1 k1 c1 -> made h1 h2 o2 k2 c2 -> made h h2 (o2 ++ o1) (k2 ++ k1) (c1 && c2).
Proof.
  intros (A & B & C & D) (E & F & G & H). unfold made. sp.
  - now rewrite E, A, app_assoc.
  - lia.
  - apply Forall_app. split; [|exact C]. eapply Forall_impl; [|exact G]. cbn. intros; lia.
  - intros X. apply andb_prop in X as [X1 X2]. rewrite H, D by assumption. apply app_assoc.
Qed.
Definition has_o (x : option lmod) : bool := match x with None => false | Some m => has_m m end.
Definition objs_o (x : option lmod) : list nat := match x with None => [] | Some m => objs_m m end.
Definition keys_o (x : option lmod) : list nat := match x with None => [] | Some m => keys_m m end.
Definition is_some {A} (x : option A) : bool := match x with None => false | Some _ => true end.

Definition P_m (m : modt) := forall h v b reg, env (live h) v b -> In reg (live h) ->
  exists h' x, init_mod m h v b reg = Ok (h', x) /\ made h h' (objs_o x) (keys_o x) (mod_clean m) /\ is_some x = loads m /\ has_o x = mod_keyed m.
Definition P_s (s : subt) := forall h v b reg, env (live h) v b -> In reg (live h) ->
  exists h' x, init_sub s h v b reg = Ok (h', x) /\ is_some x = has_files s
    /\ match x with None => live h' = live h /\ next h' = next h | Some l => made h h' (objs_l l) (keys_l l) (sub_clean s) /\ has_l l = sub_keyed s /\ (s = S_none -> l = L_nil) end.
Definition P_d (d : dirt) := forall h v b reg, env (live h) v b -> In reg (live h) ->
  exists h' l r, load_dir d h v b reg = Ok (h', l, r) /\ made h h' (objs_l l) (keys_l l) (dir_clean d) /\ has_l l = dir_keyed d
    /\ r = match d with D_missing => R_missing | D_error => R_error | D_files M_nil => R_empty | D_files _ => R_ok end
    /\ (r <> R_ok -> l = L_nil /\ h' = h).
Definition P_l (l : mods) := forall h v b reg, env (live h) v b -> In reg (live h) ->
  exists h' x, load_files l h v b reg = Ok (h', x) /\ made h h' (objs_l x) (keys_l x) (mods_clean l) /\ has_l x = mods_keyed l
    /\ (l = M_nil -> x = L_nil /\ h' = h).

Lemma made_env h h' o k c v b : made h h' o k c -> env (live h) v b -> env (live h') v b.
Proof. intros (A & _) E. rewrite A. now apply env_app. Qed.
Lemma made_in h h' o k c n : made h h' o k c -> In n (live h) -> In n (live h').
Proof. intros (A & _) E. rewrite A. apply in_or_app. now right. Qed.

Lemma load_all : (forall m, P_m m) /\ (forall s, P_s s) /\ (forall d, P_d d) /\ (forall l, P_l l).
Proof.
  apply mod_tree_ind; unfold P_m, P_s, P_d, P_l.
  - intros k f s IH h v b reg E R. cbn [init_mod]. unfold alloc at 1. cbv zeta iota beta.
    set (id := next h). set (h1 := Heap (id :: live h) (S id) (held h)).
    assert (E1 : env (live h1) v b) by (apply (env_app [id]); exact E).
    assert (I1 : In id (live h1)) by now left. assert (R1 : In reg (live h1)) by now right.
    destruct s as [|d].
    + rewrite times_reserve by assumption. cbn [obind].
      destruct f as [n|].
      * rewrite (free_head _ id (live h)) by reflexivity. cbn [obind]. eexists _, None. split; [reflexivity|]. sp; try reflexivity.
        unfold made. cbn. sp; try reflexivity; [lia | constructor | discriminate].
      * cbn [init_sub obind]. eexists _, (Some _). split; [reflexivity|]. sp; try reflexivity.
        unfold made. cbn. sp; try reflexivity; [lia | repeat constructor].
    + change (next h1) with (S id). unfold alloc at 1. change (next h1) with (S id).
      change (snd (S id, Heap (S id :: live h1) (S (S id)) (held h1))) with (Heap (S id :: live h1) (S (S id)) (held h1)).
      set (h2 := Heap (S id :: live h1) (S (S id)) (held h1)).
      assert (E2 : env (live h2) v b) by (apply (env_app [S id]); exact E1).
      assert (I2 : In id (live h2)) by now right. assert (R2 : In reg (live h2)) by now right.
      rewrite times_reserve by assumption. cbn [obind].
      destruct f as [n|].
      * rewrite (free_head _ (S id) (live h1)) by reflexivity. cbn [obind]. rewrite (free_head _ id (live h)) by reflexivity. cbn [obind].
        eexists _, None. split; [reflexivity|]. sp; try reflexivity.
        unfold made. cbn. sp; try reflexivity; [lia | constructor | discriminate].
      * match goal with |- context [init_sub _ ?H _ _ _] => set (h3 := H) end.
        destruct (IH h3 v b (S id) E2 (or_introl eq_refl)) as (h4 & x & X & Y & Z). rewrite X. cbn [obind].
        destruct x as [l|].
        -- destruct Z as (M & K & _). eexists _, (Some _). split; [reflexivity|]. sp.
           ++ destruct M as (M1 & M2 & M3 & M4). unfold made. cbn [objs_o objs_m objs_s keys_o keys_m keys_s]. sp.
              ** rewrite M1. cbn. rewrite <- !app_assoc. reflexivity.
              ** cbn in M2. lia.
              ** apply Forall_app. split; [apply Forall_app; split|].
                 --- eapply Forall_impl; [|exact M3]. cbn. intros; lia.
                 --- constructor; [subst id; lia | constructor].
                 --- constructor; [subst id; lia | constructor].
              ** cbn [mod_clean]. intros X1. apply andb_prop in X1 as [_ X1]. rewrite M4 by exact X1. cbn. now rewrite app_assoc.
           ++ cbn. symmetry. exact (eq_sym Y).
           ++ cbn [has_o has_m has_s mod_keyed]. rewrite K. cbn [is_some] in Y. unfold loads. rewrite <- Y. reflexivity.
        -- destruct Z as (Z1 & Z2). cbn [is_some] in Y.
           rewrite (free_head _ (S id) (live h1)) by (rewrite Z1; reflexivity). cbn [obind].
           rewrite (free_head _ id (live h)) by reflexivity. cbn [obind].
           eexists _, None. split; [reflexivity|]. sp.
           ++ unfold made. cbn [objs_o keys_o live next]. sp; [reflexivity | rewrite Z2; cbn; lia | constructor |].
              cbn [mod_clean]. unfold loads. rewrite <- Y. discriminate.
           ++ exact Y.
           ++ cbn [has_o mod_keyed]. unfold loads. rewrite <- Y. reflexivity.
  - intros h v b reg E R. exists h, (Some L_nil). split; [reflexivity|]. split; [reflexivity|]. sp; try reflexivity. apply made_refl.
  - intros d IH h v b reg E R. destruct (IH h v b reg E R) as (h' & l & r & X & Y & Z & W & Q). cbn [init_sub]. rewrite X. cbn [obind].
    destruct d as [| |[|m l0]]; subst r; cbn [has_files is_some].
    + exists h', None. split; [reflexivity|]. destruct (Q ltac:(discriminate)) as (-> & ->). auto.
    + exists h', None. split; [reflexivity|]. destruct (Q ltac:(discriminate)) as (-> & ->). auto.
    + exists h', None. split; [reflexivity|]. destruct (Q ltac:(discriminate)) as (-> & ->). auto.
    + exists h', (Some l). split; [reflexivity|]. split; [reflexivity|]. sp; [exact Y | exact Z | discriminate].
  - intros h v b reg E R. eexists _, _, _. split; [reflexivity|]. sp; try reflexivity; [apply made_refl | auto].
  - intros h v b reg E R. eexists _, _, _. split; [reflexivity|]. sp; try reflexivity; [apply made_refl | auto].
  - intros l IH h v b reg E R. destruct (IH h v b reg E R) as (h' & x & X & Y & Z & W). cbn [load_dir]. rewrite X. cbn [obind].
    eexists _, _, _. split; [reflexivity|]. sp; [exact Y | exact Z | destruct l; reflexivity |].
    destruct l; [intros _; auto | congruence].
  - intros h v b reg E R. eexists _, _. split; [reflexivity|]. sp; try reflexivity; [apply made_refl | auto].
  - intros m IHm l IHl h v b reg E R. destruct (IHm h v b reg E R) as (h1 & x & X & M1 & S1 & K1). cbn [load_files]. rewrite X. cbn [obind].
    destruct (IHl h1 v b reg (made_env _ _ _ _ _ _ _ M1 E) (made_in _ _ _ _ _ _ M1 R)) as (h2 & y & Y & M2 & K2 & _). rewrite Y. cbn [obind].
    eexists _, _. split; [reflexivity|]. pose proof (made_trans _ _ _ _ _ _ _ _ _ M1 M2) as M. sp.
    + destruct x; cbn [objs_o keys_o objs_l keys_l mods_clean] in *; [exact M | now rewrite !app_nil_r in M].
    + cbn [mods_keyed]. rewrite <- K1, <- K2. destruct x; reflexivity.
    + discriminate.
Qed.

(* Destruction with everything there *)
Definition D_m (m : lmod) := forall h v b reg B, live h = objs_m m ++ B -> env B v b -> In reg B ->
  exists h', destroy_mod m h v b reg = Ok h' /\ live h' = B /\ next h' = next h /\ (forall k, held h = keys_m m ++ k -> held h' = k).
Definition D_s (s : lsub) := forall h v b B, live h = objs_s s ++ B -> env B v b ->
  exists h', destroy_sub s h v b = Ok h' /\ live h' = B /\ next h' = next h /\ (forall k, held h = keys_s s ++ k -> held h' = k).
Definition D_l (l : lmods) := forall h v b reg B, live h = objs_l l ++ B -> env B v b -> In reg B ->
  exists h', destroy_mods l h v b reg = Ok h' /\ live h' = B /\ next h' = next h /\ (forall k, held h = keys_l l ++ k -> held h' = k).
Lemma destroy_all : (forall m, D_m m) /\ (forall s, D_s s) /\ (forall l, D_l l).
Proof.
  apply lmod_tree_ind; unfold D_m, D_s, D_l.
  - intros id k s IH h v b reg B L E R. cbn [objs_m] in L. rewrite <- app_assoc in L.
    destruct (IH h v b ([id] ++ B) L (env_app _ _ _ _ E)) as (h1 & X & L1 & N1 & K1). cbn [destroy_mod]. rewrite X. cbn [obind].
    assert (E1 : env (live h1) v b) by (rewrite L1; now apply env_app).
    assert (I1 : In id (live h1)) by (rewrite L1; now left). assert (R1 : In reg (live h1)) by (rewrite L1; now right).
    rewrite (use_ok h1 id) by exact I1. cbn [obind]. rewrite (use_ok h1 reg) by exact R1. cbn [obind].
    destruct (times_unreserve v b id reg k h1 E1 I1 R1) as (k1 & Y & K2). rewrite Y. cbn [obind].
    rewrite (free_head _ id B) by exact L1. eexists. split; [reflexivity|]. cbn [live next held]. sp; [reflexivity | exact N1|].
    intros k' Z. cbn [keys_m] in Z. rewrite <- app_assoc in Z. apply K2. now apply K1.
  - intros h v b B L E. exists h. sp; auto.
  - intros r l IH h v b B L E. cbn [objs_s] in L. rewrite <- app_assoc in L.
    destruct (IH h v b r ([r] ++ B) L (env_app _ _ _ _ E) (or_introl eq_refl)) as (h1 & X & L1 & N1 & K1). cbn [destroy_sub]. rewrite X. cbn [obind].
    rewrite (free_head _ r B) by exact L1. eexists. split; [reflexivity|]. sp; auto.
  - intros h v b reg B L E R. exists h. sp; auto.
  - intros m IHm l IHl h v b reg B L E R. cbn [objs_l] in L. rewrite <- app_assoc in L.
    destruct (IHl h v b reg (objs_m m ++ B) L (env_app _ _ _ _ E) ltac:(apply in_or_app; now right)) as (h1 & X & L1 & N1 & K1).
    cbn [destroy_mods]. rewrite X. cbn [obind].
    destruct (IHm h1 v b reg B L1 E R) as (h2 & Y & L2 & N2 & K2). rewrite Y. exists h2. sp; [reflexivity | exact L2 | congruence|].
    intros k Z. cbn [keys_l] in Z. rewrite <- app_assoc in Z. apply K2. now apply K1.
Qed.
(* Destruction with the structure freed before *)
Definition F_m (m : lmod) := forall h v b reg B, live h = objs_m m ++ B -> In reg B -> ~ In (v_ctx v) (live h) ->
  if has_m m then destroy_mod m h v b reg = UB else exists h', destroy_mod m h v b reg = Ok h' /\ live h' = B.
Definition F_s (s : lsub) := forall h v b B, live h = objs_s s ++ B -> ~ In (v_ctx v) (live h) ->
  if has_s s then destroy_sub s h v b = UB else exists h', destroy_sub s h v b = Ok h' /\ live h' = B.
Definition F_l (l : lmods) := forall h v b reg B, live h = objs_l l ++ B -> In reg B -> ~ In (v_ctx v) (live h) ->
  if has_l l then destroy_mods l h v b reg = UB else exists h', destroy_mods l h v b reg = Ok h' /\ live h' = B.
Lemma freed_all : (forall m, F_m m) /\ (forall s, F_s s) /\ (forall l, F_l l).
Proof.
  apply lmod_tree_ind; unfold F_m, F_s, F_l.
  - intros id k s IH h v b reg B L R N. cbn [objs_m] in L. rewrite <- app_assoc in L.
    specialize (IH h v b ([id] ++ B) L N). cbn [destroy_mod has_m]. destruct (has_s s).
    + rewrite IH, orb_true_r. reflexivity.
    + destruct IH as (h1 & X & L1). rewrite X, orb_false_r. cbn [obind].
      assert (N1 : ~ In (v_ctx v) (live h1)) by (intros I; apply N; rewrite L; rewrite L1 in I; apply in_or_app; now right).
      rewrite (use_ok h1 id) by (rewrite L1; now left). cbn [obind]. rewrite (use_ok h1 reg) by (rewrite L1; now right). cbn [obind].
      destruct k as [|k].
      * cbn [Nat.ltb Nat.leb times obind]. rewrite (free_head _ id B) by exact L1. eexists. split; reflexivity.
      * change (0 <? S k) with true. cbn [times]. unfold unreserve at 1, touch. rewrite use_ub by exact N1. reflexivity.
  - intros h v b B L N. cbn. exists h. auto.
  - intros r l IH h v b B L N. cbn [objs_s] in L. rewrite <- app_assoc in L.
    specialize (IH h v b r ([r] ++ B) L (or_introl eq_refl) N). cbn [destroy_sub has_s]. destruct (has_l l).
    + now rewrite IH.
    + destruct IH as (h1 & X & L1). rewrite X. cbn [obind]. rewrite (free_head _ r B) by exact L1. eexists. split; reflexivity.
  - intros h v b reg B L R N. exists h. auto.
  - intros m IHm l IHl h v b reg B L R N. cbn [objs_l] in L. rewrite <- app_assoc in L.
    specialize (IHl h v b reg (objs_m m ++ B) L ltac:(apply in_or_app; now right) N). cbn [destroy_mods has_l]. destruct (has_l l).
    + rewrite orb_true_r, IHl. reflexivity.
    + destruct IHl as (h1 & X & L1). rewrite X, orb_false_r. cbn [obind].
      assert (N1 : ~ In (v_ctx v) (live h1)) by (intros I; apply N; rewrite L; rewrite L1 in I; apply in_or_app; now right).
      exact (IHm h1 v b reg B L1 R N1).
Qed.

Lemma not_in_ge (n k : nat) l : Forall (fun x => k <= x) l -> n < k -> ~ In n l.
Proof. intros F L I. rewrite Forall_forall in F. specialize (F n I). lia. Qed.

Definition bad_case (fails : option cstep) (block type : dirt) : bool :=
  match fails, block, type with None, D_error, _ => false | None, _, D_error => dir_keyed block | _, _, _ => false end.
Lemma common_life_is fails block type : common_life fails block type = if bad_case fails block type then UB else Ok [].
Proof.
  destruct fails as [[]|]; try reflexivity.
  unfold common_life, init_common. cbv zeta. unfold alloc. cbn [live next held empty orb].
  set (v := Common 0 1 2 3 4). set (h0 := Heap [4; 3; 2; 1; 0] 5 []).
  assert (E0 : forall b, env (live h0) v b) by (intros b; unfold env; cbn; tauto).
  destruct load_all as (_ & _ & LD & _).
  destruct (LD block h0 v true 3 (E0 true) ltac:(cbn; tauto)) as (h1 & bl & r & X & M1 & K1 & Rr & Q1). rewrite X. cbn [obind].
  destruct (LD type h1 v false 4 (made_env _ _ _ _ _ _ _ M1 (E0 false)) (made_in _ _ _ _ _ _ M1 ltac:(cbn; tauto)))
    as (h2 & tl & r2 & Y & M2 & K2 & R2 & Q2).
  assert (NE : block = D_error \/ (block <> D_error /\ r <> R_error)).
  { destruct block as [| |[|]]; subst r; [right; split; discriminate | now left | right; split; discriminate | right; split; discriminate]. }
  destruct NE as [-> | (NB & NR)].
  { subst r. destruct (Q1 ltac:(discriminate)) as (-> & ->). reflexivity. }
  replace (bad_case None block type) with (match type with D_error => dir_keyed block | _ => false end) by (destruct block, type; (reflexivity || congruence)).
  assert (Hr : forall {A} (x y : A), match r with R_error => x | _ => y end = y) by (intros; destruct r; congruence).
  rewrite Hr, Y. cbn [obind].
  destruct M1 as (L1 & _ & F1 & _). destruct M2 as (L2 & _ & F2 & _). cbn [live h0] in L1. change (next h0) with 5 in F1.
  assert (TE : type = D_error \/ (type <> D_error /\ r2 <> R_error)).
  { destruct type as [| |[|]]; subst r2; [right; split; discriminate | now left | right; split; discriminate | right; split; discriminate]. }
  destruct TE as [-> | (NT & NR2)].
  - subst r2. destruct (Q2 ltac:(discriminate)) as (-> & ->). unfold common_fail, destroy_children. cbn [k_type k_block k_kvs v_gen v_ctx v_type v_block v_kvs v].
    rewrite (free_ok h1 2 (objs_l bl ++ [4; 3]) [1; 0]).
    2: { rewrite L1, <- app_assoc. reflexivity. }
    2: { intros I. apply in_app_or in I as [I|I]; [revert I; apply (not_in_ge 2 5); [exact F1 | lia] | cbn in I; lia]. }
    cbn [obind]. rewrite (free_ok _ 0 (objs_l bl ++ [4; 3; 1]) []).
    2: { cbn [live]. rewrite <- !app_assoc. reflexivity. }
    2: { intros I. apply in_app_or in I as [I|I]; [revert I; apply (not_in_ge 0 5); [exact F1 | lia] | cbn in I; lia]. }
    cbn [obind next held destroy_mods]. rewrite (free_ok _ 4 (objs_l bl) [3; 1]).
    2: { cbn [live]. rewrite app_nil_r. reflexivity. }
    2: { apply (not_in_ge 4 5); [exact F1 | lia]. }
    cbn [obind next held]. destruct freed_all as (_ & _ & FL).
    match goal with |- context [destroy_mods bl ?H _ _ _] => set (h3 := H) end.
    assert (N3 : ~ In (v_ctx v) (live h3)).
    { cbn [live h3 v_ctx v]. intros I. apply in_app_or in I as [I|I]; [revert I; apply (not_in_ge 0 5); [exact F1 | lia] | cbn in I; lia]. }
    specialize (FL bl h3 v true 3 [3; 1] eq_refl (or_introl eq_refl) N3). rewrite K1 in FL. destruct (dir_keyed block).
    + rewrite FL. reflexivity.
    + destruct FL as (h4 & Z & L4). rewrite Z. cbn [obind]. rewrite (free_head _ 3 [1]) by exact L4. cbn [obind]. reflexivity.
  - replace (match type with D_error => dir_keyed block | _ => false end) with false by (destruct type; (reflexivity || congruence)).
    assert (Hr2 : forall {A} (x y : A), match r2 with R_error => x | _ => y end = y) by (intros; destruct r2; congruence).
    rewrite Hr2. cbn [obind]. unfold destroy_common, destroy_children. cbn [k_type k_block k_kvs v_gen v_ctx v_type v_block v_kvs v].
    destruct destroy_all as (_ & _ & DL).
    assert (E1 : forall b, env (live h1) v b) by (intros b; rewrite L1; apply env_app, E0).
    destruct (DL tl h2 v false 4 (live h1) L2 (E1 false)) as (h3 & X3 & L3 & _ & _).
    { rewrite L1. apply in_or_app. right. cbn. tauto. }
    rewrite X3. cbn [obind]. rewrite (free_ok h3 4 (objs_l bl) [3; 2; 1; 0]).
    2: { rewrite L3. exact L1. }
    2: { apply (not_in_ge 4 5); [exact F1 | lia]. }
    cbn [obind]. match goal with |- context [destroy_mods bl ?H _ _ _] => set (h4 := H) end.
    destruct (DL bl h4 v true 3 [3; 2; 1; 0] eq_refl) as (h5 & X5 & L5 & _ & _).
    { unfold env. cbn. sp; try tauto. discriminate. }
    { now left. }
    rewrite X5. cbn [obind]. rewrite (free_head _ 3 [2; 1; 0]) by exact L5. cbn [obind]. reflexivity.
Qed.

Lemma common_life_ok fails block type :
  (type = D_error -> block <> D_error -> dir_keyed block = true -> fails <> None) -> common_life fails block type = Ok [].
Proof.
  intros H. rewrite common_life_is. destruct (bad_case fails block type) eqn:E; [|reflexivity]. exfalso.
  unfold bad_case in E. destruct fails; [discriminate|]. destruct block, type; try discriminate; apply H; auto; discriminate.
Qed.
Lemma common_life_ub block : dir_keyed block = true -> common_life None block D_error = UB.
Proof. intros K. rewrite common_life_is. destruct block; cbn in *; try discriminate. now rewrite K. Qed.

Lemma sound_env h v b reg : sound h v b reg -> env (live h) v b /\ In reg (live h).
Proof. intros (_ & A & B & C & D & E & F). unfold env. tauto. Qed.
Lemma module_round_trip m h v b reg : sound h v b reg -> mod_clean m = true ->
  exists h1 x h2, init_mod m h v b reg = Ok (h1, Some x) /\ destroy_mod x h1 v b reg = Ok h2 /\ live h2 = live h /\ held h2 = held h.
Proof.
  intros G C. apply sound_env in G as (E & R). destruct load_all as (LM & _). destruct (LM m h v b reg E R) as (h1 & x & X & M & S1 & K).
  assert (L : loads m = true) by (destruct m; cbn [mod_clean] in C; apply andb_prop in C as [C _]; exact C).
  rewrite L in S1. destruct x as [x|]; [|discriminate].
  destruct M as (M1 & _ & _ & M4). destruct destroy_all as (DM & _). destruct (DM x h1 v b reg (live h) M1 E R) as (h2 & Y & L2 & _ & K2).
  exists h1, x, h2. sp; [exact X | exact Y | exact L2 | apply K2; exact (M4 C)].
Qed.
Lemma loaded_iff m h v b reg : sound h v b reg -> exists h' x, init_mod m h v b reg = Ok (h', x) /\ (x <> None <-> loads m = true).
Proof.
  intros G. apply sound_env in G as (E & R). destruct load_all as (LM & _). destruct (LM m h v b reg E R) as (h1 & x & X & M & S1 & K).
  exists h1, x. split; [exact X|]. rewrite <- S1. destruct x; cbn; split; congruence.
Qed.
(* the keys of a module which failed *)
Lemma failed_keys k n s h v b reg : sound h v b reg -> n <= k ->
  exists h', init_mod (Modt k (Some n) s) h v b reg = Ok (h', None) /\ live h' = live h /\ held h' = repeat (next h) n ++ held h.
Proof.
  intros G Le. apply sound_env in G as (E & R). cbn [init_mod]. unfold alloc at 1. cbv zeta iota beta.
  set (id := next h). set (h1 := Heap (id :: live h) (S id) (held h)). rewrite Nat.min_l by exact Le.
  assert (E1 : env (live h1) v b) by (apply (env_app [id]); exact E). assert (I1 : In id (live h1)) by now left.
  assert (R1 : In reg (live h1)) by now right.
  destruct s as [|d].
  - rewrite times_reserve by assumption. cbn [obind]. rewrite (free_head _ id (live h)) by reflexivity. cbn [obind].
    eexists. split; [reflexivity|]. split; reflexivity.
  - change (next h1) with (S id). unfold alloc at 1. change (next h1) with (S id).
    change (snd (S id, Heap (S id :: live h1) (S (S id)) (held h1))) with (Heap (S id :: live h1) (S (S id)) (held h1)).
    set (h2 := Heap (S id :: live h1) (S (S id)) (held h1)).
    assert (E2 : env (live h2) v b) by (apply (env_app [S id]); exact E1).
    assert (I2 : In id (live h2)) by now right. assert (R2 : In reg (live h2)) by now right.
    rewrite times_reserve by assumption. cbn [obind]. rewrite (free_head _ (S id) (live h1)) by reflexivity. cbn [obind].
    rewrite (free_head _ id (live h)) by reflexivity. cbn [obind]. eexists. split; [reflexivity|]. split; reflexivity.
Qed.
Lemma without_modules k d h v b reg : sound h v b reg -> (d = D_missing \/ d = D_error \/ d = D_files M_nil) ->
  exists h', init_mod (Modt k None (S_dir d)) h v b reg = Ok (h', None) /\ live h' = live h /\ held h' = repeat (next h) k ++ held h.
Proof.
  intros G D. apply sound_env in G as (E & R). cbn [init_mod]. unfold alloc at 1. cbv zeta iota beta.
  set (id := next h). set (h1 := Heap (id :: live h) (S id) (held h)).
  change (next h1) with (S id). unfold alloc at 1. change (next h1) with (S id).
  change (snd (S id, Heap (S id :: live h1) (S (S id)) (held h1))) with (Heap (S id :: live h1) (S (S id)) (held h1)).
  set (h2 := Heap (S id :: live h1) (S (S id)) (held h1)).
  assert (E2 : env (live h2) v b) by (apply (env_app [S id; id]); exact E).
  assert (I2 : In id (live h2)) by (right; now left). assert (R2 : In reg (live h2)) by (right; now right).
  rewrite times_reserve by assumption. cbn [obind].
  destruct D as [-> |[-> | ->]]; cbn [init_sub load_dir load_files obind];
    (rewrite (free_head _ (S id) (live h1)) by reflexivity; cbn [obind]; rewrite (free_head _ id (live h)) by reflexivity; cbn [obind];
     eexists; split; [reflexivity|]; split; reflexivity).
Qed.
