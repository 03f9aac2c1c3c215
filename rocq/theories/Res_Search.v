From Verif Require Import Base Res_Model Res_Spec Res_Proofs Res_Proofs2 Res_Proofs3 Res_Proofs4 Res_Proofs5 Res_Proofs6 Res_Proofs7.
Local Open Scope nat_scope.

(* the way up is finite *)
Inductive height (s : st) : nat -> nat -> Prop :=
| H_top r k : rget s r = Some k -> r_parent k = None -> height s r 0
| H_up r p n : parent_of s r p -> height s p n -> height s r (S n).
Lemma height_exists s : good s -> forall n seen r, NoDup (r :: seen) -> (forall x, In x (r :: seen) -> live s x /\ above s r x) -> length s <= n + length seen -> exists m, height s r m /\ m + length seen < length s.
Proof.
  intros Gd. induction n as [|n IH]; intros seen r D A L.
  - exfalso. assert (length (r :: seen) <= length (seq 0 (length s))). { apply NoDup_incl_length; [exact D|]. intros x I. destruct (A x I) as [Lx _]. apply live_get in Lx as (k & G). apply rget_lt in G. apply in_seq. lia. } rewrite seq_length in H. cbn [length] in H. lia.
  - destruct (A r (or_introl eq_refl)) as [Lr _]. apply live_get in Lr as (k & G). destruct (r_parent k) as [p|] eqn:P.
    + assert (PR : parent_of s r p) by (exists k; auto). destruct (IH (r :: seen) p) as (m & H & Lm).
      * constructor; [|exact D]. intros I. destruct (A p I) as [_ Ab]. exact (acyclic _ (g_rank _ Gd) _ _ PR Ab).
      * intros x [<-|I]; [split; [apply (proj1 (proj2 (g_agree _ Gd)) r), PR|constructor]|]. destruct (A x I) as [Lx Ax]. split; [exact Lx|]. eapply above_trans; [|exact Ax]. eapply Ab_up; [exact PR|constructor].
      * cbn [length]. lia.
      * exists (S m). split; [econstructor; eassumption|]. cbn [length] in Lm. lia.
    + exists 0. split; [econstructor; eassumption|]. assert (length (r :: seen) <= length (seq 0 (length s))). { apply NoDup_incl_length; [exact D|]. intros x I. destruct (A x I) as [Lx _]. apply live_get in Lx as (kx & Gx). apply rget_lt in Gx. apply in_seq. lia. } rewrite seq_length in H. cbn [length] in H. lia.
Qed.
Lemma height_of s r : good s -> live s r -> exists m, height s r m /\ m < length s.
Proof. intros Gd L. destruct (height_exists s Gd (length s) [] r) as (m & H & Lm); [constructor; [intros []|constructor]|intros x [<-|[]]; split; [exact L|constructor]|cbn; lia|]. cbn [length] in Lm. exists m. split; [exact H|lia]. Qed.

(* matching *)
Definition wanted (m : mres) : bool := negb (given m).
Definition mt (s : st) (type : option nat) (id : option bytes) (m : mres) (x : nat) : bool :=
  match rget s x with
  | Some k => match type with Some t => r_type k =? t | None => true end && (match id with Some i => if list_eq_dec Ascii.ascii_dec (r_id k) (match r_short k with Some n => n ++ B " " ++ i | None => i end) then true else false | None => true end) && match m with MRes y => x =? y | _ => true end
  | None => false
  end.
Lemma mt_matches s type id m x : mt s type id m x = true <-> matches s type id x /\ match m with MRes y => x = y | _ => True end.
Proof.
  unfold mt, matches, named. destruct (rget s x) as [k|]; [|split; [discriminate|intros [(k & E & _) _]; discriminate E]]. rewrite !andb_true_iff. split.
  - intros [[H1 H2] H3]. split; [exists k; split; [reflexivity|]|destruct m; auto; apply Nat.eqb_eq, H3]. split; [destruct type; [apply Nat.eqb_eq, H1|exact I]|]. destruct id as [i|]; [|exact I]. destruct (list_eq_dec _ _ _) as [E|]; [|discriminate H2]. destruct (r_short k); exact E.
  - intros [(k' & E & H1 & H2) H3]. injection E as <-. split; [split|destruct m; auto; apply Nat.eqb_eq, H3]; [destruct type; [apply Nat.eqb_eq, H1|reflexivity]|]. destruct id as [i|]; [|reflexivity]. destruct (list_eq_dec _ _ _) as [|N]; [reflexivity|]. exfalso. apply N. destruct (r_short k); exact H2.
Qed.
Lemma res_match_ok s type id m x k : readable s type id -> rget s x = Some k -> res_match s x type id m = Ok (mt s type id m x).
Proof.
  intros R G. unfold res_match, mt. rewrite (the_get _ _ _ G), G. cbn [obind]. destruct (match type with Some t => r_type k =? t | None => true end) eqn:Et; [|reflexivity]. cbn [andb]. destruct id as [i|]; [|reflexivity].
  assert (exists i', named k i') as (i' & Hi) by (apply (R ltac:(discriminate) x k G); destruct type; [apply Nat.eqb_eq, Et|exact I]).
  assert (Eg : get_id k = Ok i'). { unfold get_id. unfold named in Hi. destruct (r_short k) as [n|]; [|congruence]. rewrite Hi. change (B " " ++ i') with (" "%char :: i'). rewrite app_length. cbn [length]. destruct (Nat.ltb_spec (length n + S (length i')) (length n + 1)); [lia|]. f_equal. rewrite skipn_app, skipn_all2 by lia. cbn [app]. replace (length n + 1 - length n) with 1 by lia. reflexivity. }
  rewrite Eg. cbn [obind]. f_equal. f_equal. unfold named in Hi. destruct (r_short k) as [n|]; rewrite Hi; [|destruct (list_eq_dec Ascii.ascii_dec i' i); reflexivity].
  destruct (list_eq_dec Ascii.ascii_dec i' i) as [Ei|N]; [rewrite Ei|]; destruct (list_eq_dec Ascii.ascii_dec _ (n ++ B " " ++ i)) as [E|E]; try reflexivity; try congruence.
  exfalso. apply N. apply app_inv_head in E. injection E as E. exact E.
Qed.
Lemma walk_down_ok s ign m c k : rget s c = Some k -> can_walk_down s c ign m = Ok (shown s (wanted m) c && negb (wanted m && match ign with Some i => c =? i | None => false end)).
Proof.
  intros G. unfold can_walk_down, shown, wanted. rewrite G. destruct (given m); cbn [negb orb andb]; [reflexivity|]. destruct ign as [i|]; [destruct (c =? i); [cbn [negb]; rewrite andb_false_r; reflexivity|]|]; rewrite (the_get _ _ _ G); cbn [obind negb]; rewrite andb_true_r; reflexivity.
Qed.
Lemma find_app {A} (f : A -> bool) a b : find f (a ++ b) = match find f a with Some x => Some x | None => find f b end.
Proof. induction a as [|x a IH]; [reflexivity|]. cbn [app find]. destruct (f x); [reflexivity|exact IH]. Qed.
Lemma first_find (f : nat -> bool) P l : (forall x, f x = true <-> P x) -> first_match P l (find f l).
Proof.
  intros H. induction l as [|x l IH]; [intros y []|]. cbn [find]. destruct (f x) eqn:E; [exists [], l; split; [reflexivity|]; split; [apply H, E|intros y []]|].
  assert (N : ~ P x) by (rewrite <- H; congruence). destruct (find f l) as [z|]; cbn [first_match] in *.
  - destruct IH as (a & b & -> & Pz & Na). exists (x :: a), b. split; [reflexivity|]. split; [exact Pz|]. intros y [<-|I]; auto.
  - intros y [<-|I]; auto.
Qed.

Section Down.
Variables (s : st) (type : option nat) (id : option bytes) (m : mres).
Hypothesis (Rd : readable s type id).
Let w := wanted m.
Let f := mt s type id m.
Fixpoint pre (t : tree) : list nat := match t with Node r ts => List.concat (map (fun u => if shown s w (root u) then root u :: pre u else []) ts) end.
Fixpoint wide (t : tree) : list nat := match t with Node r ts => filter (shown s w) (map root ts) ++ List.concat (map wide ts) end.
Definition look (me : method) (t : tree) : list nat := match me with DFS => pre t | WIDE_DFS => wide t | _ => filter (shown s w) (map root (subs t)) end.
Lemma first_loop (ts : list tree) fuel me ign (F : list nat -> outcome (option nat)) :
  F = (fix first (l : list nat) : outcome (option nat) :=
      match l with
      | [] => Ok None
      | c :: l =>
        let! b := can_walk_down s c ign m in
        if negb b then first l
        else
          let! b := res_match s c type id m in
          if b then Ok (Some c)
          else match me with
          | DFS => let! f := search_down fuel s c me type id None m in match f with Some _ => Ok f | None => first l end
          | _ => first l
          end
      end) ->
  (forall u, In u ts -> live s (root u)) -> (me = DFS -> ign = None /\ forall u, In u ts -> search_down fuel s (root u) DFS type id None m = Ok (find f (pre u))) ->
  F (map root ts) = Ok (find f (match me with DFS => List.concat (map (fun u => if shown s w (root u) then root u :: pre u else []) ts) | _ => filter (fun c => shown s w c && negb (w && match ign with Some i => c =? i | None => false end)) (map root ts) end)).
Proof.
  intros -> L D. induction ts as [|u ts IH]; [destruct me; reflexivity|].
  assert (Lu := L u (or_introl eq_refl)). apply live_get in Lu as (k & G). cbn [map]. cbv beta iota. fold search_down. rewrite (walk_down_ok s ign m (root u) k G). cbn [obind]. fold w.
  specialize (IH (fun v I => L v (or_intror I)) (fun E => conj (proj1 (D E)) (fun v I => proj2 (D E) v (or_intror I)))).
  destruct (shown s w (root u) && negb (w && match ign with Some i => root u =? i | None => false end)) eqn:Es; cbn [negb].
  - rewrite (res_match_ok s type id m _ _ Rd G). cbn [obind]. fold f. destruct (f (root u)) eqn:Em.
    + f_equal. destruct me; cbn [filter]; rewrite ?Es; cbn [find]; rewrite ?Em; try reflexivity. apply andb_prop in Es as [Es _]. cbn [List.concat map]. rewrite Es. cbn [app find]. rewrite Em. reflexivity.
    + destruct me; try (rewrite IH; f_equal; cbn [filter]; rewrite Es; cbn [find]; rewrite Em; reflexivity).
      destruct (D eq_refl) as [-> Du]. rewrite (Du u (or_introl eq_refl)). cbn [obind]. apply andb_prop in Es as [Es _]. cbn [List.concat map]. rewrite Es. cbn [app find]. rewrite Em, find_app. destruct (find f (pre u)); [reflexivity|]. rewrite IH. reflexivity.
  - rewrite IH. f_equal. destruct me; cbn [filter]; rewrite ?Es; try reflexivity. destruct (D eq_refl) as [-> _]. rewrite andb_false_r in Es. cbn [negb] in Es. rewrite andb_true_r in Es. cbn [List.concat map]. rewrite Es. reflexivity.
Qed.
Lemma shown_filter l : filter (fun c => shown s w c && negb (w && false)) l = filter (shown s w) l.
Proof. apply filter_ext. intros c. rewrite andb_false_r. cbn [negb]. apply andb_true_r. Qed.
Lemma search_down_lemma me : (me = IMM_DESC \/ me = DFS \/ me = WIDE_DFS) -> forall t fuel, tree_at s t -> depth t <= fuel -> search_down fuel s (root t) me type id None m = Ok (find f (look me t)).
Proof.
  intros Me. induction t as [r ts IH] using tree_ind'. intros fuel T Df. destruct fuel as [|fuel]; [cbn [depth] in Df; lia|]. pose proof (depth_subs _ _ _ Df) as Ds. inversion T as [r' k ts' G E F P]; subst. rewrite Forall_forall in *.
  assert (L : forall u, In u ts -> live s (root u)) by (intros u I; destruct (P u I) as (ku & Gu & _); eapply get_live, Gu).
  assert (Sub : forall u, In u ts -> search_down fuel s (root u) me type id None m = Ok (find f (look me u))) by (intros u I; apply IH; [exact I|apply F, I|apply Ds, I]).
  cbn [search_down root]. rewrite (the_get _ _ _ G). cbn [obind]. rewrite E.
  rewrite (first_loop ts fuel me None _ eq_refl L); [|intros ->; split; [reflexivity|exact Sub]]. cbn [obind].
  destruct Me as [-> | [-> | -> ]].
  - cbn [look subs]. rewrite shown_filter. destruct (find f _); reflexivity.
  - cbn [look pre]. destruct (find f _); reflexivity.
  - cbn [look wide subs]. rewrite shown_filter, find_app. destruct (find f (filter (shown s w) (map root ts))) as [x|]; [reflexivity|]. clear - Sub.
    induction ts as [|u ts IH]; [reflexivity|]. cbn [map]. rewrite (Sub u (or_introl eq_refl)). cbn [obind look List.concat map]. rewrite find_app. destruct (find f (wide u)); [reflexivity|]. apply IH. intros v I. apply Sub. right. exact I.
Qed.
Lemma sib_lemma t fuel i : tree_at s t -> 0 < fuel -> search_down fuel s (root t) IMM_DESC type id (Some i) m = Ok (find f (filter (fun c => shown s w c && negb (w && (c =? i))) (map root (subs t)))).
Proof.
  intros T Df. destruct fuel as [|fuel]; [lia|]. destruct t as [r ts]. inversion T as [r' k ts' G E F P]; subst. rewrite Forall_forall in *.
  assert (L : forall u, In u ts -> live s (root u)) by (intros u I; destruct (P u I) as (ku & Gu & _); eapply get_live, Gu).
  cbn [search_down root]. rewrite (the_get _ _ _ G). cbn [obind]. rewrite E. rewrite (first_loop ts fuel IMM_DESC (Some i) _ eq_refl L); [|discriminate]. cbn [obind subs]. destruct (find f _); reflexivity.
Qed.
Lemma pre_visits t : tree_at s t -> pre_order s w (children_of s (root t)) (pre t).
Proof.
  induction t as [r ts IH] using tree_ind'. intros T. inversion T as [r' k ts' G E F P]; subst. cbn [root]. rewrite (children_get _ _ _ G), E. cbn [pre]. clear T G E P. induction IH as [|u ts Hu _ IHts]; [constructor|]. inversion F as [|? ? F1 F2]; subst. cbn [map List.concat]. destruct (shown s w (root u)) eqn:Es; [cbn [app]; apply PO_go; auto|apply PO_skip; auto].
Qed.
Lemma wide_visits t : tree_at s t -> forall rs l, wide_below s w rs l -> wide_below s w (root t :: rs) (wide t ++ l).
Proof.
  induction t as [r ts IH] using tree_ind'. intros T rs l Hl. inversion T as [r' k ts' G E F P]; subst. cbn [root wide]. rewrite <- app_assoc.
  assert (E' : children_of s r = map root ts) by (rewrite (children_get _ _ _ G); exact E). rewrite <- E'. apply WB_cons; [|exact Hl]. rewrite E'. clear - IH F. induction IH as [|u ts Hu _ IHts]; [constructor|]. inversion F as [|? ? F1 F2]; subst. cbn [map List.concat]. apply Hu; auto.
Qed.
End Down.

(* the lists are determined *)
Lemma pre_fun s w cs l : pre_order s w cs l -> forall l', pre_order s w cs l' -> l = l'.
Proof. induction 1 as [|c cs l Hs H IH|c cs l1 l2 Hs H1 IH1 H2 IH2]; intros l' H'; inversion H'; subst; try congruence; [apply IH; assumption|]. rewrite (IH1 l0), (IH2 l3) by assumption. reflexivity. Qed.
Lemma wide_fun s w rs l : wide_below s w rs l -> forall l', wide_below s w rs l' -> l = l'.
Proof. induction 1 as [|r rs l1 l2 H1 IH1 H2 IH2]; intros l' H'; inversion H'; subst; [reflexivity|]. rewrite (IH1 l0), (IH2 l3) by assumption. reflexivity. Qed.
Lemma ups_fun s w r l : ups s w r l -> forall l', ups s w r l' -> l = l'.
Proof.
  induction 1 as [r N|r p P W|r p l P W H IH]; intros l' H'; inversion H' as [? N'|? p' P' W'|? p' l'' P' W' H'']; subst; try congruence; try (exfalso; eapply N; eassumption); try (exfalso; eapply N'; eassumption).
  rewrite (parent_fun _ _ _ _ P P') in *. f_equal. apply IH. assumption.
Qed.
Lemma tops_fun s w r l : tops s w r l -> forall l', tops s w r l' -> l = l'.
Proof.
  induction 1 as [r N|r p P W|r p l P W H IH]; intros l' H'; inversion H' as [? N'|? p' P' W'|? p' l'' P' W' H'']; subst; try congruence; try (exfalso; eapply N; eassumption); try (exfalso; eapply N'; eassumption).
  apply IH. rewrite (parent_fun _ _ _ _ P P'). assumption.
Qed.
Lemma visits_fun s w me r l l' : visits s w me r l -> visits s w me r l' -> l = l'.
Proof.
  destruct me; cbn [visits]; intros H H'.
  - congruence.
  - eapply pre_fun; eassumption.
  - eapply wide_fun; eassumption.
  - destruct H as (u & H & ->), H' as (u' & H' & ->). rewrite (ups_fun _ _ _ _ H _ H'). reflexivity.
  - eapply ups_fun; eassumption.
  - eapply tops_fun; eassumption.
  - destruct H as (u & H & W), H' as (u' & H' & W'). rewrite (tops_fun _ _ _ _ H _ H') in W. eapply wide_fun; eassumption.
  - destruct H as (u & H & ->), H' as (u' & H' & ->). rewrite (ups_fun _ _ _ _ H _ H'). reflexivity.
Qed.

(* upwards *)
Lemma walk_up_ok s m r k p : rget s r = Some k -> r_parent k = Some p -> can_walk_up k m = way_up s (wanted m) r.
Proof. intros G P. unfold can_walk_up, way_up, wanted. rewrite G, P. destruct (given m); reflexivity. Qed.
Lemma walk_top s m r k : rget s r = Some k -> r_parent k = None -> can_walk_up k m = given m.
Proof. intros G P. unfold can_walk_up. rewrite P. cbn [andb]. apply orb_false_r. Qed.
Lemma no_parent s r k : rget s r = Some k -> r_parent k = None -> forall p, ~ parent_of s r p.
Proof. intros G P p (k' & G' & H). congruence. Qed.
Lemma ups_exists s w r n : height s r n -> exists l, ups s w r l.
Proof. induction 1 as [r k G P|r p n P H (l & IH)]; [exists []; apply U_top; eapply no_parent; eassumption|]. destruct (way_up s w r) eqn:W; [exists (p :: l); eapply U_go; eassumption|exists []; eapply U_stop; eassumption]. Qed.
Lemma tops_exists s w r n : height s r n -> exists l, tops s w r l.
Proof. induction 1 as [r k G P|r p n P H (l & IH)]; [exists [r]; apply T_top; eapply no_parent; eassumption|]. destruct (way_up s w r) eqn:W; [exists l; eapply T_go; eassumption|exists []; eapply T_stop; eassumption]. Qed.
Lemma parent_live s r p : good s -> parent_of s r p -> exists kp, rget s p = Some kp.
Proof. intros Gd P. apply live_get. apply (proj1 (proj2 (g_agree _ Gd)) r), P. Qed.
Lemma imm_up s type id m r fuel l : good s -> readable s type id -> live s r -> 0 < fuel -> ups s (wanted m) r l -> search_up fuel s r IMM_ANC type id m = Ok (find (mt s type id m) (firstn 1 l)).
Proof.
  intros Gd Rd L Df U. destruct fuel as [|fuel]; [lia|]. cbn [search_up]. apply live_get in L as (k & G). rewrite (the_get _ _ _ G). cbn [obind]. destruct (r_parent k) as [p|] eqn:P.
  - rewrite (walk_up_ok s m r k p G P). assert (PR : parent_of s r p) by (exists k; auto). destruct (parent_live _ _ _ Gd PR) as (kp & Gp). inversion U as [? N|? p' P' W|? p' l' P' W H]; subst.
    + destruct (N p PR).
    + rewrite W. reflexivity.
    + rewrite W, (res_match_ok s type id m p kp Rd Gp). cbn [obind]. rewrite (parent_fun _ _ _ _ P' PR). cbn [firstn find]. destruct (mt s type id m p); reflexivity.
  - rewrite (walk_top s m r k G P). inversion U as [? N|? p' P' W|? p' l' P' W H]; subst; try (destruct (no_parent _ _ _ G P _ P')). destruct (given m); reflexivity.
Qed.
Lemma anc_up s type id m r n : good s -> readable s type id -> height s r n -> forall fuel l, n < fuel -> ups s (wanted m) r l -> search_up fuel s r ANC type id m = Ok (find (mt s type id m) l).
Proof.
  intros Gd Rd. induction 1 as [r k G P|r p n PR H IH]; intros fuel l Df U; (destruct fuel as [|fuel]; [lia|]); cbn [search_up].
  - rewrite (the_get _ _ _ G). cbn [obind]. rewrite P, (walk_top s m r k G P). inversion U as [? N|? p' P' W|? p' l' P' W H]; subst; try (destruct (no_parent _ _ _ G P _ P')). destruct (given m); reflexivity.
  - pose proof PR as (k & G & P). rewrite (the_get _ _ _ G). cbn [obind]. rewrite (walk_up_ok s m r k p G P), P. destruct (parent_live _ _ _ Gd PR) as (kp & Gp). inversion U as [? N|? p' P' W|? p' l' P' W H']; subst.
    + destruct (N p PR).
    + rewrite W. reflexivity.
    + rewrite W, (res_match_ok s type id m p kp Rd Gp). cbn [obind]. rewrite (parent_fun _ _ _ _ P' PR) in *. cbn [find]. destruct (mt s type id m p); [reflexivity|]. apply IH; [lia|exact H'].
Qed.
Lemma top_up s type id m r n : good s -> readable s type id -> height s r n -> forall fuel l, n < fuel -> tops s (wanted m) r l -> search_up fuel s r TOP type id m = Ok (find (mt s type id m) l).
Proof.
  intros Gd Rd. induction 1 as [r k G P|r p n PR H IH]; intros fuel l Df U; (destruct fuel as [|fuel]; [lia|]); cbn [search_up].
  - rewrite (the_get _ _ _ G). cbn [obind]. rewrite P. inversion U as [? N|? p' P' W|? p' l' P' W H]; subst; try (destruct (no_parent _ _ _ G P _ P')). rewrite (res_match_ok s type id m r k Rd G). cbn [obind find]. destruct (mt s type id m r); reflexivity.
  - pose proof PR as (k & G & P). rewrite (the_get _ _ _ G). cbn [obind]. rewrite (walk_up_ok s m r k p G P), P. inversion U as [? N|? p' P' W|? p' l' P' W H']; subst.
    + destruct (N p PR).
    + rewrite W. reflexivity.
    + rewrite W. apply IH; [lia|]. rewrite <- (parent_fun _ _ _ _ P' PR). exact H'.
Qed.
Lemma tops_one s w r l : tops s w r l -> l = [] \/ exists t, l = [t].
Proof. induction 1; eauto. Qed.
Lemma tops_live s w r l : good s -> live s r -> tops s w r l -> forall t, In t l -> live s t.
Proof. intros Gd L T. induction T as [r N|r p P W|r p l P W H IH]; intros t I; [destruct I as [<-|[]]; exact L|destruct I|]. apply IH; [|exact I]. destruct (parent_live _ _ _ Gd P) as (kp & Gp). eapply get_live, Gp. Qed.
Lemma any_match s m r : live s r -> (match m with MRes _ => False | _ => True end) -> mt s None None m r = true.
Proof. intros L M. apply live_get in L as (k & G). apply mt_matches. split; [exists k; auto|destruct m; auto; destruct M]. Qed.
Lemma none_readable s type : readable s type None.
Proof. intros H. contradiction. Qed.
Theorem search_ok s start me type id m : good s -> live s start -> readable s type id -> (match m with MRes _ => me <> GENUS /\ me <> SIB | _ => True end) ->
  exists l, visits s (wanted m) me start l /\ do_search s start me type id m = Ok (find (mt s type id m) l).
Proof.
  intros Gd L Rd Mm. destruct (tree_exists _ Gd start L) as (t & Et & T). pose proof (tree_depth _ _ Gd T) as Dt. destruct (height_of _ _ Gd L) as (n & Hn & Ln). assert (Fu : n < fuel_of s) by (unfold fuel_of; lia).
  destruct (ups_exists s (wanted m) _ _ Hn) as (u & Hu). destruct (tops_exists s (wanted m) _ _ Hn) as (tp & Ht).
  assert (Ch : forall t, tree_at s t -> children_of s (root t) = map root (subs t)) by (intros t0 T0; destruct (tree_root _ _ T0) as (k & G & E); rewrite (children_get _ _ _ G); exact E).
  destruct me; cbn [visits do_search].
  - eexists. split; [reflexivity|]. rewrite <- Et. rewrite (search_down_lemma s type id m Rd IMM_DESC) by (auto; lia). cbn [look]. rewrite (Ch t T). reflexivity.
  - exists (pre s m t). rewrite <- Et. split; [apply pre_visits, T|]. apply search_down_lemma; auto; lia.
  - exists (wide s m t). rewrite <- Et. split; [|apply search_down_lemma; auto; lia]. rewrite <- (app_nil_r (wide s m t)). apply wide_visits; [exact T|constructor].
  - eexists. split; [exists u; split; [exact Hu|reflexivity]|]. apply imm_up; auto. unfold fuel_of. lia.
  - exists u. split; [exact Hu|]. eapply anc_up; eassumption.
  - exists tp. split; [exact Ht|]. eapply top_up; eassumption.
  - rewrite (top_up s None None m start n Gd (none_readable s None) Hn (fuel_of s) tp Fu Ht). cbn [obind]. destruct (tops_one _ _ _ _ Ht) as [->|(x & ->)].
    + exists []. split; [exists []; split; [exact Ht|constructor]|reflexivity].
    + assert (Lx : live s x) by (eapply tops_live; [exact Gd|exact L|exact Ht|left; reflexivity]). cbn [find]. rewrite (any_match s m x Lx) by (destruct m; auto; destruct Mm; contradiction). destruct (tree_exists _ Gd x Lx) as (tx & Ex & Tx). pose proof (tree_depth _ _ Gd Tx).
      exists (wide s m tx). split; [exists [x]; split; [exact Ht|]; rewrite <- Ex, <- (app_nil_r (wide s m tx)); apply wide_visits; [exact Tx|constructor]|]. rewrite <- Ex. apply (search_down_lemma s type id m Rd WIDE_DFS); auto; lia.
  - rewrite (imm_up s None None m start (fuel_of s) u Gd (none_readable s None) L ltac:(unfold fuel_of; lia) Hu). cbn [obind]. destruct u as [|p u].
    + exists []. split; [exists []; auto|reflexivity].
    + assert (Lp : live s p) by (inversion Hu; subst; destruct (parent_live _ _ _ Gd ltac:(eassumption)) as (kp & Gp); eapply get_live, Gp). cbn [firstn find]. rewrite (any_match s m p Lp) by (destruct m; auto; destruct Mm; contradiction). destruct (tree_exists _ Gd p Lp) as (tx & Ex & Tx).
      eexists. split; [exists (p :: u); split; [exact Hu|reflexivity]|]. cbn match. rewrite <- Ex, (sib_lemma s type id m Rd tx (fuel_of s) start Tx ltac:(unfold fuel_of; lia)). rewrite (Ch tx Tx). reflexivity.
Qed.
