From Coq Require Import Permutation.
From Verif Require Import Base UbrCmd_Model UbrCmd_Spec UbrCmd_Proofs UbrRoute_Model UbrRoute_Spec UbrRoute_Proofs UbrRoute_Proofs2.
Local Open Scope nat_scope.

Definition good_step (s : wsys) (x : outcome wsys) : Prop := exists s', x = Ok s' /\ sound s' /\ follows s s'.
Lemma wsys_eta s : sound s -> s = Wsys (w_kids s) (w_next s) (w_ended s) (w_up s) (w_down s) 0.
Proof. intros S. pose proof (o_lost _ S) as L. destruct s. cbn in L. subst. reflexivity. Qed.
Lemma follows_nil s s' : Permutation (tags s') (tags s) -> (distinct s' -> forall e', In e' (commands s') -> (exists e, moved s s' e e') \/ exists l, run (e_reg e') l = Ok (view e' s')) -> follows s s'.
Proof. intros P H. split; [exists []; rewrite app_nil_r; exact P|exact H]. Qed.
Lemma good_same s : sound s -> good_step s (Ok s).
Proof.
  intros S. exists s. split; [reflexivity|]. split; [exact S|]. apply follows_nil; [reflexivity|]. intros _ e I. left. apply (stays s s e I eq_refl).
Qed.
(* Steps that leave the states of all commands *)
Lemma good_quiet s kids up down ended : sound s -> Permutation (entries kids) (commands s) -> incl (conns kids) (conns (w_kids s)) -> NoDup (conns kids) ->
  (ended = false -> w_ended s = false) -> up = w_up s -> (forall e, told e down = told e (w_down s)) ->
  (forall n m, In (Some n, m) down -> In (Some n, m) (w_down s)) ->
  (forall m, In (None, m) down -> m = msg_client \/ (exists p, m = msg_dbdump p) \/ m = msg_umonitor) ->
  good_step s (Ok (Wsys kids (w_next s) ended up down 0)).
Proof.
  intros S P C1 C2 En -> Td D1 D2. eexists. split; [reflexivity|].
  destruct (sound_entries s kids (w_up s) down ended S P C1 C2 En (incl_refl _)) as (S' & T); [intros n m H; apply (o_some _ S), D1, H|exact D2|]. split; [exact S'|].
  apply follows_nil; [exact T|]. intros _ e I. left. apply stays; [apply (Permutation_in _ P), I|]. apply view_eq; cbn [w_up w_down]; [reflexivity|symmetry; apply Td].
Qed.
Lemma none_of s m : sound s -> In (None, m) (w_down s) -> m = msg_client \/ (exists p, m = msg_dbdump p) \/ m = msg_umonitor.
Proof. intros S. apply (o_none _ S). Qed.
Lemma good_push s m : sound s -> (m = msg_client \/ (exists p, m = msg_dbdump p) \/ m = msg_umonitor) -> good_step s (Ok (push_down s None m)).
Proof.
  intros S M. eexists. split; [reflexivity|]. unfold push_down. rewrite (o_lost _ S).
  destruct (sound_entries s (w_kids s) (w_up s) (w_down s ++ [(None, m)]) (w_ended s) S (Permutation_refl _) (incl_refl _) (o_conns _ S) (fun H => H) (incl_refl _)) as (S' & T).
  - intros n m' H. apply in_app_or in H as [H|[H|[]]]; [apply (o_some _ S), H|discriminate H].
  - intros m' H. apply in_app_or in H as [H|[H|[]]]; [apply (o_none _ S), H|injection H as <-; exact M].
  - split; [exact S'|]. apply follows_nil; [exact T|]. intros _ e I. left. destruct M as [->|[(p & ->)| ->]].
    1,2: apply stays; [exact I|]; apply view_eq; cbn [w_up w_down]; [reflexivity|]; rewrite told_app, ?told_client, ?told_dbdump; cbn [told flat_map]; rewrite app_nil_r; reflexivity.
    exists e. split; [exact I|]. split; [reflexivity|]. destruct (name_eqb (e_name e) SCAN) eqn:N.
    + exists [A_udev]. cbn [sys_steps sys_step obind]. unfold view. cbn [s_cmd s_in w_up w_down]. rewrite told_app, told_umonitor, N. reflexivity.
    + exists []. cbn [sys_steps]. f_equal. apply view_eq; cbn [w_up w_down]; [reflexivity|]. rewrite told_app, told_umonitor, N. cbn [told flat_map]. rewrite app_nil_r. reflexivity.
Qed.
(* The main process *)
Lemma good_main s ok : sound s -> good_step s (Ok (step_main s ok)).
Proof.
  intros S. unfold step_main. destruct (w_up s) as [|[n m] up] eqn:U; [apply good_same, S|].
  destruct (o_up _ S n m) as (nm & g & fl & k & I & ->); [rewrite U; left; reflexivity|].
  assert (Tg := I). apply tag_in in I as (e & I & En & Enm & Eg & Efl).
  destruct (find_num_some n (w_kids s)) as (e' & F); [rewrite <- En; apply in_map, I|]. rewrite F. apply find_num_in in F as (I' & En').
  assert (e' = e) as -> by (apply (same_num _ _ _ (o_nums _ S) I' I); congruence). clear I' En'.
  destruct (o_each _ S e I) as (R & V & Se & Ee). rewrite proxy_ask. destruct k; cbn [ra_merge ra_reply ra_closed ask m_ext negb andb lose].
  - (* SYNC *)
    eexists. split; [reflexivity|]. unfold lose. cbn [w_kids w_next w_ended w_up w_down w_lost]. rewrite (o_lost _ S).
    destruct (sound_put s e (emit (e_cmd e) (Merged ok)) up (w_down s ++ [(Some n, answer M_Sync fl nm)]) (w_ended s) (set_entry (with_cmd e (emit (e_cmd e) (Merged ok))) (w_kids s)) S I) as (S' & T).
    + rewrite set_entries. reflexivity.
    + rewrite set_conns. apply incl_refl.
    + rewrite set_conns. apply (o_conns _ S).
    + apply (merged_inv _ (e_cmd e) (c_sent (e_cmd e)) ok V).
    + exact Se.
    + intros X. split; [exact X|]. apply Ee, X.
    + intros n' m' H. apply (o_up _ S). rewrite U. right. exact H.
    + intros n' m' H. apply in_app_or in H as [H|[H|[]]]; [apply (o_some _ S), H|]. injection H as <- <-. exists nm, g, fl, M_Sync. auto.
    + intros m' H. apply in_app_or in H as [H|[H|[]]]; [apply (o_none _ S), H|discriminate H].
    + split; [exact S'|]. apply follows_nil; [exact T|]. intros _ y Y. left. unfold commands in Y. cbn [w_kids] in Y. rewrite set_entries in Y.
      apply (put_in _ _ _ _ (o_nums _ S) I) in Y as [->|(Y & Ny)].
      * exists e. split; [exact I|]. split; [reflexivity|]. exists [A_main ok]. cbn [sys_steps]. unfold view at 1. cbn [sys_step s_cmd s_in]. rewrite U. cbn [with_sent c_sent].
        rewrite (asked_own_at _ _ _ _ _ _ En). cbn [obind]. unfold view. cbn [w_up w_down]. rewrite told_app, (told_own_at _ n) by exact En. reflexivity.
      * apply stays; [exact Y|]. apply view_eq; cbn [w_up w_down]; [rewrite U, asked_other by (cbn; congruence); reflexivity|]. rewrite told_app, told_other by congruence. cbn [told flat_map]. rewrite app_nil_r. reflexivity.
  - (* RESOURCES *)
    eexists. split; [reflexivity|]. unfold lose. cbn [w_kids w_next w_ended w_up w_down w_lost]. rewrite (o_lost _ S).
    set (down := match (if ok then Some (answer M_Resources fl nm) else None) with Some a => w_down s ++ [(Some n, a)] | None => w_down s end).
    assert (Dn : down = w_down s ++ if ok then [(Some n, answer M_Resources fl nm)] else []) by (unfold down; destruct ok; [|rewrite app_nil_r]; reflexivity). clearbody down. subst down.
    destruct (sound_entries s (w_kids s) up (w_down s ++ if ok then [(Some n, answer M_Resources fl nm)] else []) (w_ended s) S (Permutation_refl _) (incl_refl _) (o_conns _ S) (fun H => H)) as (S' & T).
    + rewrite U. intros x X. right. exact X.
    + intros n' m' H. apply in_app_or in H as [H|H]; [apply (o_some _ S), H|]. destruct ok; [|destruct H]. destruct H as [H|[]]. injection H as <- <-. exists nm, g, fl, M_Resources. auto.
    + intros m' H. apply in_app_or in H as [H|H]; [apply (o_none _ S), H|]. destruct ok; [|destruct H]. destruct H as [H|[]]. discriminate H.
    + split; [exact S'|]. apply follows_nil; [exact T|]. intros _ y Y. left. destruct (Nat.eq_dec (e_num y) n) as [E|Ny].
      * assert (y = e) as -> by (apply (same_num _ _ _ (o_nums _ S) Y I); congruence). exists e. split; [exact I|]. split; [reflexivity|]. exists [A_main ok]. cbn [sys_steps]. unfold view at 1. cbn [sys_step s_cmd s_in with_sent c_sent].
        rewrite U, (asked_own_at _ _ _ _ _ _ En). cbn [obind]. unfold view. cbn [w_up w_down]. rewrite told_app. destruct ok; [rewrite (told_own_at _ n) by exact En; reflexivity|]. cbn [told flat_map]. rewrite app_nil_r. reflexivity.
      * apply stays; [exact Y|]. apply view_eq; cbn [w_up w_down]; [rewrite U, asked_other by (cbn; congruence); reflexivity|]. rewrite told_app. destruct ok; [rewrite told_other by congruence|]; cbn [told flat_map]; rewrite app_nil_r; reflexivity.
Qed.
