(* Property C93: the full name of a module is its path through the registries *)
From Verif Require Import Base ModReg_Model ModReg_Spec ModTree_Model ModTree_Spec ModTree_Proofs.
Local Open Scope nat_scope.

(* Missing from the full claim: registries attached when modules of theirs already have registries, and attached to a module of their own;
   attaching that fails (see below) *)
Theorem full_names_partial l n : good_run (Tree [] []) l -> exists_node (trun l) n -> exists p, path (trun l) n p /\
  match n with NReg g => exists k, reg_at (trun l) g = Some k /\ t_base k = p | NMod m => exists k, mod_at (trun l) m = Some k /\ t_full k = p end.
Proof. exact (names_lemma l n). Qed.
Print Assumptions full_names_partial.

Theorem dependence_partial l a b : good_run (Tree [] []) l -> exists_node (trun l) a -> exists_node (trun l) b -> exists x y,
  root (trun l) a x /\ root (trun l) b y /\ (match_dep (trun l) a b = true <-> x = y).
Proof. exact (dep_lemma l a b). Qed.
Print Assumptions dependence_partial.

(* Attaching that fails leaves everything as it was, if the new name does not begin with the old one *)
Theorem failed_attach_reverted_partial l m g km kg : good_run (Tree [] []) l -> mod_at (trun l) m = Some km -> reg_at (trun l) g = Some kg -> t_parent kg = None ->
  (forall t, t_full km ++ t_base kg <> t_base kg ++ t) -> add_subreg (trun l) m g false = (trun l, (- 1)%Z).
Proof. exact (failed_lemma l m g km kg). Qed.
Print Assumptions failed_attach_reverted_partial.

Definition ex_ops : list top := [NewReg (B "type"); NewMod 0 (B "dm"); NewReg (B "sub"); NewMod 1 (B "lvm"); AddSub 0 1 true; NewMod 1 (B "mpath"); NewReg (B "x")].
Example ex_good : good_run (Tree [] []) ex_ops.
Proof.
  split; [exact I|]. split; [intros H; cbn in H; decompose [or] H; first [discriminate|contradiction]|]. split; [exact I|]. split; [intros H; cbn in H; decompose [or] H; first [discriminate|contradiction]|].
  split; [|split; [intros H; cbn in H; decompose [or] H; first [discriminate|contradiction]|split; [exact I|exact I]]].
  split; [|split; [|reflexivity]].
  - intros h k m km H P M. destruct h as [|[|h]]; [injection H as <-; discriminate P|injection H as <-; discriminate P|destruct h; discriminate H].
  - intros k H. injection H as <-. discriminate.
Qed.
Example ex_names : map t_full (tmods (trun ex_ops)) = [B "/type/dm"; B "/type/dm/sub/lvm"; B "/type/dm/sub/mpath"]
  /\ map t_base (regs (trun ex_ops)) = [B "/type"; B "/type/dm/sub"; B "/x"]
  /\ match_dep (trun ex_ops) (NReg 0) (NMod 2) = true /\ match_dep (trun ex_ops) (NMod 0) (NReg 2) = false.
Proof. vm_compute. split; [reflexivity|]. split; [reflexivity|]. split; reflexivity. Qed.
Example ex_failed : add_subreg (trun ex_ops) 2 2 false = (trun ex_ops, (- 1)%Z) /\ (forall t, B "/type/dm/sub/mpath" ++ B "/x" <> B "/x" ++ t).
Proof. split; [vm_compute; reflexivity|]. intros t H. discriminate H. Qed.

(* Findings *)
(* a registry attached with registries below it: those keep their names and their top *)
Definition nested : list top := [NewReg (B "a"); NewMod 0 (B "m"); NewReg (B "b"); NewMod 1 (B "n"); NewReg (B "c"); NewMod 2 (B "o"); AddSub 1 2 true; AddSub 0 1 true].
Theorem full_names_refuted : path (trun nested) (NMod 2) (B "/a/m/b/n/c/o") /\ map t_full (tmods (trun nested)) = [B "/a/m"; B "/a/m/b/n"; B "/b/n/c/o"].
Proof.
  split; [|vm_compute; reflexivity].
  refine (path_mod (trun nested) 2 (Tmod 2 (B "/b/n/c/o") (B "o")) (B "/a/m/b/n/c") _ _); [vm_compute; reflexivity|].
  refine (path_reg (trun nested) 2 (Treg (B "c") 1 (B "/b/n/c") (Some 1)) 1 (B "/a/m/b/n") _ _ _); [vm_compute; reflexivity|reflexivity|].
  refine (path_mod (trun nested) 1 (Tmod 1 (B "/a/m/b/n") (B "n")) (B "/a/m/b") _ _); [vm_compute; reflexivity|].
  refine (path_reg (trun nested) 1 (Treg (B "b") 0 (B "/a/m/b") (Some 0)) 0 (B "/a/m") _ _ _); [vm_compute; reflexivity|reflexivity|].
  refine (path_mod (trun nested) 0 (Tmod 0 (B "/a/m") (B "m")) (B "/a") _ _); [vm_compute; reflexivity|].
  refine (path_top (trun nested) 0 (Treg (B "a") 0 (B "/a") None) _ _); [vm_compute; reflexivity|reflexivity].
Qed.
Print Assumptions full_names_refuted.
Theorem dependence_refuted : root (trun nested) (NReg 2) 0 /\ root (trun nested) (NReg 0) 0 /\ match_dep (trun nested) (NReg 0) (NReg 2) = false.
Proof.
  assert (R0 : root (trun nested) (NReg 0) 0) by (eapply root_top; [vm_compute; reflexivity|reflexivity]).
  split; [|split; [exact R0|vm_compute; reflexivity]].
  eapply root_reg; [vm_compute; reflexivity|reflexivity|]. eapply root_mod; [vm_compute; reflexivity|]. eapply root_reg; [vm_compute; reflexivity|reflexivity|].
  eapply root_mod; [vm_compute; reflexivity|]. exact R0.
Qed.
Print Assumptions dependence_refuted.
(* modules keep the new name after attaching failed if it begins with the old name of the registry *)
Theorem failed_attach_reverted_refuted : exists l, good_run (Tree [] []) l /\
  let (s, r) := add_subreg (trun l) 0 1 false in r = (- 1)%Z /\ map t_full (tmods (trun l)) = [B "/sub1/m"; B "/sub/n"]
  /\ map t_base (regs s) = [B "/sub1"; B "/sub"] /\ map t_full (tmods s) = [B "/sub1/m"; B "/sub1/m/sub/n"].
Proof.
  exists [NewReg (B "sub1"); NewMod 0 (B "m"); NewReg (B "sub"); NewMod 1 (B "n")]. split.
  - repeat (split; [first [exact I | intros H; cbn in H; decompose [or] H; first [discriminate|contradiction]]|]). exact I.
  - vm_compute. split; [reflexivity|]. split; [reflexivity|]. split; reflexivity.
Qed.
Print Assumptions failed_attach_reverted_refuted.
(* a registry can be attached to its own module, and then has no top *)
Theorem attach_below_itself_refuted : let s := trun [NewReg (B "a"); NewMod 0 (B "m")] in let (s, r) := add_subreg s 0 0 true in
  r = 0%Z /\ forall n x, ~ root s n x.
Proof.
  cbn zeta. set (s := trun _). vm_compute in s. subst s. vm_compute (add_subreg _ _ _ _). split; [reflexivity|]. intros n x H.
  induction H as [g k A B|g k m x A B C IH|m k x A C IH]; try exact IH. destruct g as [|[|g]]; try discriminate A. injection A as <-. discriminate B.
Qed.
Print Assumptions attach_below_itself_refuted.
