From Coq Require Import Permutation.
From Verif Require Import Base UbrCmd_Model UbrCmd_Spec UbrCmd_Proofs UbrRoute_Model UbrRoute_Spec UbrRoute_Proofs.
Local Open Scope nat_scope.

(* Messages *)
Lemma name_eqb_spec a b : reflect (a = b) (name_eqb a b).
Proof. unfold name_eqb. destruct (list_eq_dec ascii_dec a b); constructor; assumption. Qed.
Lemma name_eqb_refl a : name_eqb a a = true. Proof. destruct (name_eqb_spec a a); congruence. Qed.
Lemma c_str_app id : ~ In NUL id -> c_str (id ++ [NUL]) = Ok id.
Proof.
  induction id as [|c id IH]; intros H; [reflexivity|]. cbn [app c_str]. destruct (Ascii.eqb_spec c NUL) as [->|_]; [exfalso; apply H; left; reflexivity|].
  rewrite IH; [reflexivity|]. intros I. apply H. right. exact I.
Qed.
Definition regs := self_reg :: client_regs.
Definition named (nm : bytes) : Prop := 1 <= length nm /\ ~ In NUL nm.
Lemma regs_named nm g : In (nm, g) regs -> named nm.
Proof.
  intros H. unfold regs, self_reg, client_regs in H. cbn [In] in H. decompose [or] H; try contradiction.
  all: match goal with E : (_, _) = (_, _) |- _ => injection E as <- <- end; split; [cbn; lia|intros X; cbn in X; decompose [or] X; try contradiction; discriminate].
Qed.
Lemma regs_scan g : In (SCAN, g) regs -> g = reg_scan.
Proof.
  intros H. unfold regs, self_reg, client_regs in H. cbn [In] in H. decompose [or] H; try contradiction.
  all: match goal with E : (_, _) = (_, _) |- _ => try discriminate E; injection E as <-; reflexivity end.
Qed.
(* The answer to a request *)
Definition answer (k : to_main_msg) (fl : byte * byte) (nm : bytes) : message := Message (m_data (ask k fl nm)) match k with M_Sync => false | M_Resources => true end.
Definition told_kind (k : to_main_msg) : to_worker_msg := match k with M_Sync => W_Sync | M_Resources => W_Resources end.
Lemma ask_cmd k fl nm : header_cmd (m_data (ask k fl nm)) = match k with M_Sync => CMD_SYNC | M_Resources => CMD_RESOURCES end.
Proof. destruct k; reflexivity. Qed.
Lemma proxy_ask k fl nm ok : proxy_recv (ask k fl nm) ok =
  match k with M_Sync => Reaction true (Some (answer k fl nm)) true | M_Resources => Reaction false (if ok then Some (answer k fl nm) else None) false end.
Proof. destruct k; reflexivity. Qed.
Lemma worker_answer k fl nm : named nm -> worker_recv (answer k fl nm) =
  Ok (J_sched nm match k with M_Sync => false | M_Resources => true end, match k with M_Sync => false | M_Resources => true end).
Proof.
  intros (L & N). assert (Len : forall h : bytes, length h = 16 -> length (h ++ nm ++ [NUL]) = 16 + (length nm + 1)) by (intros h H; rewrite !app_length, H; reflexivity).
  unfold worker_recv. destruct k; cbn [answer ask m_data m_ext negb]; rewrite Len by reflexivity; replace (16 + (length nm + 1) <? HEADER_SIZE) with false by (unfold HEADER_SIZE; lia);
    match goal with |- context [(?x =? CAT_SYSTEM)%N] => change (x =? CAT_SYSTEM)%N with true end.
  - match goal with |- context [(?x =? CMD_SYNC)%N] => change (x =? CMD_SYNC)%N with true end. cbv match.
    replace (16 + (length nm + 1) - HEADER_SIZE <? 2) with false by (unfold HEADER_SIZE; lia).
    match goal with |- context [skipn HEADER_SIZE (?h ++ ?x)] => change (skipn HEADER_SIZE (h ++ x)) with x end. rewrite c_str_app by exact N. reflexivity.
  - match goal with |- context [(?x =? CMD_SYNC)%N] => change (x =? CMD_SYNC)%N with false end. match goal with |- context [(?x =? CMD_UMONITOR)%N] => change (x =? CMD_UMONITOR)%N with false end.
    match goal with |- context [(?x =? CMD_RESOURCES)%N] => change (x =? CMD_RESOURCES)%N with true end. cbv match.
    replace (16 + (length nm + 1) - HEADER_SIZE <? 2) with false by (unfold HEADER_SIZE; lia).
    match goal with |- context [skipn HEADER_SIZE (?h ++ ?x)] => change (skipn HEADER_SIZE (h ++ x)) with x end. rewrite c_str_app by exact N. reflexivity.
Qed.

(* Commands of a worker *)
Definition tag (e : entry) : nat * (bytes * reg) * (byte * byte) := (e_num e, (e_name e, e_reg e), e_flags e).
Definition tags (s : wsys) := map tag (commands s).
Definition conns (l : list kid) : list nat := flat_map (fun k => match k with Conn n _ => [n] | Alone _ => [] end) l.
Lemma entries_app a b : entries (a ++ b) = entries a ++ entries b.
Proof. apply flat_map_app. Qed.
Lemma conns_app a b : conns (a ++ b) = conns a ++ conns b.
Proof. apply flat_map_app. Qed.
Lemma entries_alone l : entries (map Alone l) = l.
Proof. induction l as [|e l IH]; [reflexivity|]. cbn. f_equal. exact IH. Qed.
Lemma conns_alone l : conns (map Alone l) = [].
Proof. induction l as [|e l IH]; [reflexivity|]. exact IH. Qed.
Lemma cleanup_entries k l : Permutation (entries (cleanup k l)) (entries l).
Proof.
  unfold cleanup. rewrite entries_app, entries_alone. induction l as [|x l IH]; [constructor|]. cbn [filter]. destruct (is_conn k x); cbn [negb].
  - change (entries (x :: filter (is_conn k) l)) with (kid_entries x ++ entries (filter (is_conn k) l)). change (entries (x :: l)) with (kid_entries x ++ entries l).
    etransitivity; [apply Permutation_app_comm|]. rewrite <- app_assoc. apply Permutation_app_head. etransitivity; [apply Permutation_app_comm|exact IH].
  - change (entries (x :: ?a) ) with (kid_entries x ++ entries a). change (entries (x :: l)) with (kid_entries x ++ entries l).
    change (entries (x :: filter (fun x => negb (is_conn k x)) l)) with (kid_entries x ++ entries (filter (fun x => negb (is_conn k x)) l)).
    rewrite <- app_assoc. apply Permutation_app_head. exact IH.
Qed.
Lemma conns_filter p l : incl (conns (filter p l)) (conns l) /\ (NoDup (conns l) -> NoDup (conns (filter p l))).
Proof.
  induction l as [|x l (I & N)]; [split; [apply incl_refl|auto]|]. cbn [filter]. destruct (p x).
  - destruct x as [n es|e]; [|split; [exact I|exact N]]. change (conns (Conn n es :: l)) with (n :: conns l). change (conns (Conn n es :: filter p l)) with (n :: conns (filter p l)).
    split; [intros y [->|Y]; [left; reflexivity|right; apply I, Y]|]. intros H. inversion H; subst. constructor; [intros X; auto|auto].
  - split; [intros y Y; unfold conns; cbn [flat_map]; apply in_or_app; right; apply I, Y|]. intros H. apply N. destruct x as [n es|e]; [inversion H; assumption|exact H].
Qed.
Lemma cleanup_conns k l : incl (conns (cleanup k l)) (conns l) /\ (NoDup (conns l) -> NoDup (conns (cleanup k l))).
Proof. unfold cleanup. rewrite conns_app, conns_alone, app_nil_r. apply conns_filter. Qed.
Definition put (x e : entry) : entry := if e_num e =? e_num x then x else e.
Lemma set_entries x l : entries (set_entry x l) = map (put x) (entries l).
Proof.
  induction l as [|k l IH]; [reflexivity|]. change (entries (k :: l)) with (kid_entries k ++ entries l). rewrite map_app, <- IH. destruct k; reflexivity.
Qed.
Lemma set_conns x l : conns (set_entry x l) = conns l.
Proof. induction l as [|k l IH]; [reflexivity|]. destruct k; cbn; [f_equal|]; exact IH. Qed.
Lemma put_tags e c l : NoDup (map e_num l) -> In e l -> map tag (map (put (with_cmd e c)) l) = map tag l.
Proof.
  intros N I. rewrite map_map. apply map_ext_in. intros y Y. unfold put. cbn [with_cmd e_num]. destruct (Nat.eqb_spec (e_num y) (e_num e)) as [E|]; [|reflexivity].
  assert (y = e) as ->; [|reflexivity]. clear c. induction l as [|z l IH]; [destruct I|]. cbn [map] in N. inversion N as [|? ? N1 N2]; subst. destruct I as [->|I], Y as [->|Y].
  - reflexivity.
  - exfalso. apply N1. rewrite <- E. apply in_map, Y.
  - exfalso. apply N1. rewrite E. apply in_map, I.
  - apply IH; assumption.
Qed.
Lemma put_in e c l y : NoDup (map e_num l) -> In e l -> In y (map (put (with_cmd e c)) l) -> y = with_cmd e c \/ In y l /\ e_num y <> e_num e.
Proof.
  intros N I Y. apply in_map_iff in Y as (z & <- & Z). unfold put. cbn [with_cmd e_num]. destruct (Nat.eqb_spec (e_num z) (e_num e)) as [E|E]; [left; reflexivity|right; auto].
Qed.
Lemma same_num l a b : NoDup (map e_num l) -> In a l -> In b l -> e_num a = e_num b -> a = b.
Proof.
  intros N I J E. induction l as [|z l IH]; [destruct I|]. cbn [map] in N. inversion N as [|? ? N1 N2]; subst. destruct I as [->|I], J as [->|J].
  - reflexivity.
  - exfalso. apply N1. rewrite E. apply in_map, J.
  - exfalso. apply N1. rewrite <- E. apply in_map, I.
  - apply IH; assumption.
Qed.
Lemma same_name l a b : NoDup (map e_name l) -> In a l -> In b l -> e_name a = e_name b -> a = b.
Proof.
  intros N I J E. induction l as [|z l IH]; [destruct I|]. cbn [map] in N. inversion N as [|? ? N1 N2]; subst. destruct I as [->|I], J as [->|J].
  - reflexivity.
  - exfalso. apply N1. rewrite E. apply in_map, J.
  - exfalso. apply N1. rewrite <- E. apply in_map, I.
  - apply IH; assumption.
Qed.

(* What holds of every worker *)
Record sound (s : wsys) : Prop := Sound {
  o_nums : NoDup (map e_num (commands s));
  o_conns : NoDup (conns (w_kids s));
  o_low : forall e, In e (commands s) -> e_num e < w_next s;
  o_conn_low : forall n, In n (conns (w_kids s)) -> n < w_next s;
  o_each : forall e, In e (commands s) -> In (e_name e, e_reg e) regs /\ inv (e_reg e) (e_cmd e) /\ c_sent (e_cmd e) = [] /\ (w_ended s = false -> c_ended (e_cmd e) = false);
  o_up : forall n m, In (n, m) (w_up s) -> exists nm g fl k, In (n, (nm, g), fl) (tags s) /\ m = ask k fl nm;
  o_some : forall n m, In (Some n, m) (w_down s) -> exists nm g fl k, In (n, (nm, g), fl) (tags s) /\ m = answer k fl nm;
  o_none : forall m, In (None, m) (w_down s) -> m = msg_client \/ (exists p, m = msg_dbdump p) \/ m = msg_umonitor;
  o_lost : w_lost s = 0 }.
Lemma tag_in s n nm g fl : In (n, (nm, g), fl) (tags s) -> exists e, In e (commands s) /\ e_num e = n /\ e_name e = nm /\ e_reg e = g /\ e_flags e = fl.
Proof. intros H. apply in_map_iff in H as (e & E & I). injection E as <- <- <- <-. eauto 6. Qed.
Lemma num_of_tag (l : list entry) : map e_num l = map (fun t => fst (fst t)) (map tag l).
Proof. rewrite map_map. reflexivity. Qed.
Lemma name_of_tag (l : list entry) : map e_name l = map (fun t => fst (snd (fst t))) (map tag l).
Proof. rewrite map_map. reflexivity. Qed.

(* What a step does to the commands *)
Definition moved (s s' : wsys) (e e' : entry) : Prop :=
  In e (commands s) /\ tag e = tag e' /\ exists l, sys_steps (e_reg e) (view e s) l = Ok (view e' s').
Definition follows (s s' : wsys) : Prop :=
  (exists l, Permutation (tags s') (tags s ++ l))
  /\ (distinct s' -> forall e', In e' (commands s') -> (exists e, moved s s' e e') \/ exists l, run (e_reg e') l = Ok (view e' s')).
Lemma find_num_in n l e : find_num n l = Some e -> In e (entries l) /\ e_num e = n.
Proof. intros H. apply find_some in H as (I & E). split; [exact I|]. lia. Qed.
Lemma find_num_some n l : In n (map e_num (entries l)) -> exists e, find_num n l = Some e.
Proof.
  intros I. destruct (find_num n l) as [e|] eqn:E; [eauto|]. apply in_map_iff in I as (e & <- & I). pose proof (find_none _ _ E e I) as X. cbn in X. lia.
Qed.
Lemma find_name_in id l e : find_name id l = Some e -> In e (entries l) /\ e_name e = id.
Proof. intros H. apply find_some in H as (I & E). split; [exact I|]. destruct (name_eqb_spec (e_name e) id); [assumption|discriminate E]. Qed.
Lemma find_name_some id l e : In e (entries l) -> e_name e = id -> exists e, find_name id l = Some e.
Proof.
  intros I E. destruct (find_name id l) as [e'|] eqn:X; [eauto|]. pose proof (find_none _ _ X e I) as Y. cbn in Y. rewrite E, name_eqb_refl in Y. discriminate Y.
Qed.
Lemma asked_app n a b : asked n (a ++ b) = asked n a ++ asked n b.
Proof. apply flat_map_app. Qed.
Lemma told_app e a b : told e (a ++ b) = told e a ++ told e b.
Proof. apply flat_map_app. Qed.
Lemma told_tag e e' l : tag e = tag e' -> told e l = told e' l.
Proof. unfold tag. intros E. injection E as E1 E2 E3 E4. unfold told. rewrite E1, E2. reflexivity. Qed.
Lemma NoDup_front {A} (a b : list A) : NoDup (a ++ b) -> NoDup a.
Proof. induction a as [|x a IH]; intros H; [constructor|]. cbn in H. inversion H; subst. constructor; [intros I; auto using in_or_app|auto]. Qed.
Lemma distinct_perm s s' l : Permutation (tags s') (tags s ++ l) -> distinct s' -> distinct s.
Proof.
  unfold distinct. rewrite !name_of_tag. fold (tags s) (tags s'). intros P D. apply (Permutation_map (fun t => fst (snd (fst t)))) in P. rewrite map_app in P.
  apply (Permutation_NoDup P) in D. apply NoDup_front in D. exact D.
Qed.
(* Steps changing one command *)
Lemma asked_other n x l : n <> fst x -> asked n (x :: l) = asked n l.
Proof. intros H. unfold asked at 1. cbn [flat_map]. fold (asked n l). destruct (Nat.eqb_spec (fst x) n); [congruence|reflexivity]. Qed.
Lemma asked_own n k fl nm l : asked n ((n, ask k fl nm) :: l) = k :: asked n l.
Proof. unfold asked at 1. cbn [flat_map fst snd]. fold (asked n l). rewrite Nat.eqb_refl, ask_cmd. destruct k; reflexivity. Qed.
Lemma asked_sent n fl nm l : asked n (map (fun m => (n, ask m fl nm)) l) = l.
Proof. induction l as [|k l IH]; [reflexivity|]. cbn [map]. rewrite asked_own, IH. reflexivity. Qed.
Lemma asked_sent_other n n' fl nm l : n <> n' -> asked n (map (fun m => (n', ask m fl nm)) l) = [].
Proof. intros H. induction l as [|k l IH]; [reflexivity|]. cbn [map]. rewrite asked_other by exact H. exact IH. Qed.
Lemma told_other e n m l : e_num e <> n -> told e ((Some n, m) :: l) = told e l.
Proof. intros H. unfold told at 1. cbn [flat_map fst snd]. fold (told e l). destruct (Nat.eqb_spec n (e_num e)); [congruence|reflexivity]. Qed.
Lemma told_own e k fl nm l : told e ((Some (e_num e), answer k fl nm) :: l) = told_kind k :: told e l.
Proof. unfold told at 1. cbn [flat_map fst snd answer m_data]. fold (told e l). rewrite Nat.eqb_refl, ask_cmd. destruct k; reflexivity. Qed.
Lemma told_own_at e n k fl nm l : e_num e = n -> told e ((Some n, answer k fl nm) :: l) = told_kind k :: told e l.
Proof. intros <-. apply told_own. Qed.
Lemma asked_own_at m n k fl nm l : m = n -> asked m ((n, ask k fl nm) :: l) = k :: asked m l.
Proof. intros <-. apply asked_own. Qed.
Lemma told_umonitor e l : told e ((None, msg_umonitor) :: l) = if name_eqb (e_name e) SCAN then W_Umonitor :: told e l else told e l.
Proof.
  unfold told at 1. cbn [flat_map fst snd]. fold (told e l). change (header_cat (m_data msg_umonitor) =? CAT_SYSTEM)%N with true. rewrite andb_true_r. change (B "c-scan") with SCAN.
  destruct (name_eqb (e_name e) SCAN); reflexivity.
Qed.
Lemma told_client e l : told e ((None, msg_client) :: l) = told e l.
Proof. unfold told at 1. cbn [flat_map fst snd]. fold (told e l). change (header_cat (m_data msg_client) =? CAT_SYSTEM)%N with false. rewrite andb_false_r. reflexivity. Qed.
Lemma told_dbdump e p l : told e ((None, msg_dbdump p) :: l) = told e l.
Proof. unfold told at 1. cbn [flat_map fst snd]. fold (told e l). change (header_cat (m_data (msg_dbdump p)) =? CAT_SYSTEM)%N with false. rewrite andb_false_r. reflexivity. Qed.

(* Replacing the state of e *)
Lemma sound_put s e c up down ended kids : sound s -> In e (commands s) -> Permutation (entries kids) (map (put (with_cmd e c)) (commands s)) ->
  incl (conns kids) (conns (w_kids s)) -> NoDup (conns kids) ->
  inv (e_reg e) c -> c_sent c = [] -> (ended = false -> w_ended s = false /\ c_ended c = false) ->
  (forall n m, In (n, m) up -> exists nm g fl k, In (n, (nm, g), fl) (tags s) /\ m = ask k fl nm) ->
  (forall n m, In (Some n, m) down -> exists nm g fl k, In (n, (nm, g), fl) (tags s) /\ m = answer k fl nm) ->
  (forall m, In (None, m) down -> m = msg_client \/ (exists p, m = msg_dbdump p) \/ m = msg_umonitor) ->
  sound (Wsys kids (w_next s) ended up down 0) /\ Permutation (tags (Wsys kids (w_next s) ended up down 0)) (tags s).
Proof.
  intros [S1 S2 S3 S4 S5 S6 S7 S8 S9] I P C1 C2 V Se En U1 U2 U3.
  assert (T : Permutation (map tag (entries kids)) (tags s)) by (etransitivity; [apply Permutation_map, P|]; rewrite (put_tags e c _ S1 I); reflexivity).
  split; [|exact T]. constructor; unfold commands, tags in *; cbn [w_kids w_next w_ended w_up w_down w_lost].
  - rewrite num_of_tag. apply (Permutation_NoDup (Permutation_map _ (Permutation_sym T))). rewrite <- num_of_tag. exact S1.
  - exact C2.
  - intros y Y. apply (Permutation_in _ P) in Y. apply (put_in _ _ _ _ S1 I) in Y as [->|(Y & _)]; [exact (S3 e I)|apply S3, Y].
  - intros n H. apply S4, C1, H.
  - intros y Y. apply (Permutation_in _ P) in Y. apply (put_in _ _ _ _ S1 I) in Y as [->|(Y & _)].
    + destruct (S5 e I) as (R & _). cbn [with_cmd e_name e_reg e_cmd]. split; [exact R|]. split; [exact V|]. split; [exact Se|]. intros X. apply En, X.
    + destruct (S5 y Y) as (R & Iv & Sy & X). split; [exact R|]. split; [exact Iv|]. split; [exact Sy|]. intros Z. apply X, En, Z.
  - intros n m H. destruct (U1 n m H) as (nm & g & fl & k & X & Y). exists nm, g, fl, k. split; [|exact Y]. apply (Permutation_in _ (Permutation_sym T)), X.
  - intros n m H. destruct (U2 n m H) as (nm & g & fl & k & X & Y). exists nm, g, fl, k. split; [|exact Y]. apply (Permutation_in _ (Permutation_sym T)), X.
  - exact U3.
  - reflexivity.
Qed.
(* Commands that are not touched *)
Lemma stays s s' e : In e (commands s) -> view e s = view e s' -> exists e0, moved s s' e0 e.
Proof. intros I V. exists e. split; [exact I|]. split; [reflexivity|]. exists []. cbn [sys_steps]. rewrite V. reflexivity. Qed.
Lemma view_eq e s s' : asked (e_num e) (w_up s) = asked (e_num e) (w_up s') -> told e (w_down s) = told e (w_down s') -> view e s = view e s'.
Proof. unfold view. intros -> ->. reflexivity. Qed.
Lemma sound_entries s kids up down ended : sound s -> Permutation (entries kids) (commands s) -> incl (conns kids) (conns (w_kids s)) -> NoDup (conns kids) ->
  (ended = false -> w_ended s = false) -> incl up (w_up s) ->
  (forall n m, In (Some n, m) down -> exists nm g fl k, In (n, (nm, g), fl) (tags s) /\ m = answer k fl nm) ->
  (forall m, In (None, m) down -> m = msg_client \/ (exists p, m = msg_dbdump p) \/ m = msg_umonitor) ->
  sound (Wsys kids (w_next s) ended up down 0) /\ Permutation (tags (Wsys kids (w_next s) ended up down 0)) (tags s).
Proof.
  intros [S1 S2 S3 S4 S5 S6 S7 S8 S9] P C1 C2 En Up U2 U3.
  assert (T : Permutation (map tag (entries kids)) (tags s)) by apply (Permutation_map tag P).
  split; [|exact T]. constructor; unfold commands, tags in *; cbn [w_kids w_next w_ended w_up w_down w_lost].
  - rewrite num_of_tag. apply (Permutation_NoDup (Permutation_map _ (Permutation_sym T))). rewrite <- num_of_tag. exact S1.
  - exact C2.
  - intros y Y. apply S3, (Permutation_in _ P), Y.
  - intros n H. apply S4, C1, H.
  - intros y Y. apply (Permutation_in _ P) in Y. destruct (S5 y Y) as (R & Iv & Sy & X). split; [exact R|]. split; [exact Iv|]. split; [exact Sy|]. intros Z. apply X, En, Z.
  - intros n m H. destruct (S6 n m (Up _ H)) as (nm & g & fl & k & X & Y). exists nm, g, fl, k. split; [|exact Y]. apply (Permutation_in _ (Permutation_sym T)), X.
  - intros n m H. destruct (U2 n m H) as (nm & g & fl & k & X & Y). exists nm, g, fl, k. split; [|exact Y]. apply (Permutation_in _ (Permutation_sym T)), X.
  - exact U3.
  - reflexivity.
Qed.
(* Adding a command *)
Lemma sound_new s e kids down : sound s -> Permutation (entries kids) (commands s ++ [e]) -> conns kids = conns (w_kids s) -> e_num e = w_next s ->
  In (e_name e, e_reg e) regs -> init_cmd (e_reg e) = Ok (e_cmd e) -> incl down (w_down s) ->
  sound (Wsys kids (S (w_next s)) (w_ended s) (w_up s) down 0) /\ Permutation (tags (Wsys kids (S (w_next s)) (w_ended s) (w_up s) down 0)) (tags s ++ [tag e]).
Proof.
  intros [S1 S2 S3 S4 S5 S6 S7 S8 S9] P C Nu R Ini Dn.
  assert (T : Permutation (map tag (entries kids)) (tags s ++ [tag e])) by (etransitivity; [apply (Permutation_map tag P)|]; rewrite map_app; reflexivity).
  destruct (init_inv _ _ Ini) as (V & _ & _ & Se & _ & _ & _ & En).
  split; [|exact T]. constructor; unfold commands, tags in *; cbn [w_kids w_next w_ended w_up w_down w_lost].
  - apply (Permutation_NoDup (Permutation_map _ (Permutation_sym P))). rewrite map_app. cbn [map]. apply (Permutation_NoDup (Permutation_cons_append _ _)). constructor; [|exact S1].
    intros X. apply in_map_iff in X as (y & E & Y). specialize (S3 y Y). lia.
  - rewrite C. exact S2.
  - intros y Y. apply (Permutation_in _ P) in Y. apply in_app_or in Y as [Y|[<-|[]]]; [specialize (S3 y Y); lia|lia].
  - intros n H. rewrite C in H. specialize (S4 n H). lia.
  - intros y Y. apply (Permutation_in _ P) in Y. apply in_app_or in Y as [Y|[<-|[]]]; [apply S5, Y|]. auto.
  - intros n m H. destruct (S6 n m H) as (nm & g & fl & k & X & Y). exists nm, g, fl, k. split; [|exact Y]. apply (Permutation_in _ (Permutation_sym T)), in_or_app. left. exact X.
  - intros n m H. destruct (S7 n m (Dn _ H)) as (nm & g & fl & k & X & Y). exists nm, g, fl, k. split; [|exact Y]. apply (Permutation_in _ (Permutation_sym T)), in_or_app. left. exact X.
  - intros m H. apply S8, Dn, H.
  - reflexivity.
Qed.
(* Nothing is on the way to a new command but uevents *)
Lemma new_asked s n : sound s -> n = w_next s -> asked n (w_up s) = [].
Proof.
  intros [S1 S2 S3 S4 S5 S6 S7 S8 S9] ->. assert (H : forall l, incl l (w_up s) -> asked (w_next s) l = []).
  { induction l as [|[n m] l IH]; intros I; [reflexivity|]. rewrite asked_other; [apply IH; intros x X; apply I; right; exact X|].
    cbn [fst]. destruct (S6 n m (I _ (or_introl eq_refl))) as (nm & g & fl & k & X & _). apply tag_in in X as (e & X & <- & _). specialize (S3 e X). lia. }
  apply H, incl_refl.
Qed.
Lemma new_told s e down : sound s -> e_num e = w_next s -> incl down (w_down s) -> told e down = repeat W_Umonitor (length (told e down)) /\ (e_name e <> SCAN -> told e down = []).
Proof.
  intros [S1 S2 S3 S4 S5 S6 S7 S8 S9] Nu. induction down as [|[[n|] m] l IH]; intros I; [split; reflexivity|..]; (destruct IH as (E & N); [intros x X; apply I; right; exact X|]).
  - destruct (S7 n m (I _ (or_introl eq_refl))) as (nm & g & fl & k & X & _). apply tag_in in X as (e' & X & <- & _). specialize (S3 e' X). rewrite told_other by lia. auto.
  - destruct (S8 m (I _ (or_introl eq_refl))) as [->|[(p & ->)| ->]]; [rewrite told_client; auto|rewrite told_dbdump; auto|]. rewrite told_umonitor. destruct (name_eqb_spec (e_name e) SCAN); [|auto].
    cbn [length repeat]. split; [f_equal; exact E|intros; contradiction].
Qed.
Lemma udevs g c l j : sys_steps g (Sys c l) (repeat A_udev j) = Ok (Sys c (l ++ repeat W_Umonitor j)).
Proof.
  revert l. induction j as [|j IH]; intros l; cbn [repeat sys_steps]; [rewrite app_nil_r; reflexivity|]. cbn [sys_step s_cmd s_in obind]. rewrite IH, <- app_assoc. reflexivity.
Qed.
Lemma new_runs s e kids ended down : sound s -> e_num e = w_next s -> init_cmd (e_reg e) = Ok (e_cmd e) -> incl down (w_down s) ->
  exists l, run (e_reg e) l = Ok (view e (Wsys kids (S (w_next s)) ended (w_up s) down 0)).
Proof.
  intros S Nu Ini Dn. exists (repeat A_udev (length (told e down))). unfold run. rewrite Ini. cbn [obind]. rewrite udevs. cbn [app]. unfold view. cbn [w_up w_down].
  rewrite (new_asked s _ S Nu). destruct (new_told s e down S Nu Dn) as (E & _). rewrite <- E. do 2 f_equal. destruct (init_inv _ _ Ini) as (_ & _ & _ & Se & _). destruct (e_cmd e). cbn in Se. subst. reflexivity.
Qed.
