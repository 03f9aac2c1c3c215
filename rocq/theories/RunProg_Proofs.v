From Verif Require Import Base RunProg_Model RunProg_Spec.
Local Open Scope Z_scope.
Ltac sp := repeat match goal with |- _ /\ _ => split end.

Lemma caller_is c a : usable c -> exists y, run_new_worker c a
  = Ok (Returned c (if k_memory a && k_channels a && k_signals a && k_fork a && k_proxy a then k_loop a else -1), y)
  /\ (y = None <-> k_memory a && k_channels a && k_signals a && k_fork a = false).
Proof.
  intros (A & B & C). unfold run_new_worker. rewrite A, B, C. cbn [negb andb].
  destruct (k_memory a), (k_channels a), (k_signals a), (k_fork a); cbn [negb andb]; try (eexists; split; [reflexivity|]; split; reflexivity).
  destruct (k_proxy a); (eexists; split; [reflexivity|]; split; discriminate).
Qed.
Lemma child_is c a : k_parent a = true -> k_close a = true -> k_vectors a = true ->
  (executes a -> child c a = Program) /\ (~ executes a -> exists r, child c a = Returned (Ctl (v_external c) false (v_count c) false) r /\ r < 0).
Proof.
  intros A B C. unfold child. rewrite A, B, C. cbn [negb]. unfold run_worker. cbn [v_prepared negb v_external v_specs v_count]. unfold run_external, executes. cbn [v_external v_count v_prepared].
  destruct (k_setup a <? 0) eqn:S; [split; [lia|]; intros _; eexists; split; [reflexivity | lia]|].
  destruct (k_init a) as [r|] eqn:I.
  - destruct (r <? 0) eqn:R; [split; [intros (_ & X & _); specialize (X r eq_refl); lia | intros _; eexists; split; [reflexivity | lia]]|].
    destruct (k_exec a); [split; [reflexivity | intros X; exfalso; apply X; sp; [lia | intros q Q; injection Q as <-; lia | reflexivity]]|].
    split; [intros (_ & _ & X); discriminate | intros _; eexists; split; [reflexivity | lia]].
  - change (0 <? 0) with false. cbv iota. destruct (k_exec a); [split; [reflexivity | intros X; exfalso; apply X; sp; [lia | discriminate | reflexivity]]|].
    split; [intros (_ & _ & X); discriminate | intros _; eexists; split; [reflexivity | lia]].
Qed.
Lemma never_back c a : executes a -> forall c' r, child c a <> Returned c' r.
Proof.
  intros E c' r. destruct (k_parent a) eqn:A; [|unfold child; rewrite A; discriminate]. destruct (k_close a) eqn:B; [|unfold child; rewrite A, B; discriminate].
  destruct (k_vectors a) eqn:C; [|unfold child; rewrite A, B, C; discriminate]. rewrite (proj1 (child_is c a A B C) E). discriminate.
Qed.
Lemma second_is c a : usable c -> exists r y, run_new_worker c a = Ok (Returned c r, y) /\ (y = None \/ y = Some (child c a)).
Proof.
  intros (A & B & C). unfold run_new_worker. rewrite A, B, C. cbn [negb andb].
  destruct (k_memory a), (k_channels a), (k_signals a), (k_fork a); cbn [negb andb]; try (do 2 eexists; split; [reflexivity | now left]).
  destruct (k_proxy a); (do 2 eexists; split; [reflexivity | now right]).
Qed.
Lemma one_left l : forall p c, usable c -> (forall f q, In f l -> executes (f q)) -> run_all l p c = Ok [(p ++ repeat false (length l), c)].
Proof.
  induction l as [|f l IH]; intros p c U E; [cbn; rewrite app_nil_r; reflexivity|]. cbn [run_all].
  destruct (second_is c (f p) U) as (r & y & -> & Y). cbn [obind].
  rewrite IH by (auto; intros g q G; apply E; now right). cbn [obind].
  assert (N : match y with Some (Returned c0 _) => run_all l (p ++ [true]) c0 | _ => Ok [] end = Ok []).
  { destruct Y as [-> | ->]; [reflexivity|]. pose proof (never_back c (f p) (E f p (or_introl eq_refl))) as X. destruct (child c (f p)) as [c' r'| |]; [exfalso; exact (X _ _ eq_refl) | reflexivity | reflexivity]. }
  rewrite N. cbn [obind]. rewrite app_nil_r, <- app_assoc. reflexivity.
Qed.
Lemma two_back c a : usable c -> starts a -> ~ executes a -> exists r r', run_new_worker c a = Ok (Returned c r, Some (Returned (Ctl true false (v_count c) false) r')) /\ r' < 0.
Proof.
  intros (A & B & C) (S1 & S2 & S3 & S4 & S5 & S6 & S7) E. unfold run_new_worker. rewrite A, B, C, S1, S2, S3, S4. cbn [negb andb].
  destruct (proj2 (child_is c a S5 S6 S7) E) as (r' & -> & L). rewrite A. destruct (k_proxy a); do 2 eexists; (split; [reflexivity | exact L]).
Qed.
Lemma next_ub c a n : v_external c = true -> v_specs c = false -> v_count c = S n -> v_prepared c = false -> k_memory a = true -> run_new_worker c a = UB.
Proof. intros A B C D E. unfold run_new_worker. rewrite A, B, C, D, E. reflexivity. Qed.
Lemma two_left c f : usable c -> starts (f []) -> ~ executes (f []) -> exists c', run_all [f] [] c = Ok [([false], c); ([true], c')].
Proof. intros U S E. cbn [run_all]. destruct (two_back c (f []) U S E) as (r & r' & -> & _). cbn [obind app]. eexists. reflexivity. Qed.
Lemma then_ub c f g n : usable c -> v_count c = S n -> starts (f []) -> ~ executes (f []) -> k_memory (g [true]) = true -> run_all [f; g] [] c = UB.
Proof.
  intros U N S E M. cbn [run_all]. destruct (two_back c (f []) U S E) as (r & r' & -> & _). cbn [obind app].
  rewrite (next_ub (Ctl true false (v_count c) false) (g [true]) n) by (cbn; assumption || reflexivity). cbn [obind].
  destruct (second_is c (g [false]) U) as (r2 & y & -> & Y). cbn [obind]. destruct y as [[c2 r3| |]|]; cbn [obind app]; reflexivity.
Qed.
