From Verif Require Import Base Tok_Model UtilStr_Model UtilStr_Spec UtilStr_Proofs2 ModName_Proofs ModReg_Model ModReg_Spec.
From Coq Require Import Permutation.
Local Open Scope nat_scope.

(* Aliases *)
Lemma not_nul_true a : ~ In NUL a -> forall c, In c a -> negb (Ascii.eqb c NUL) = true.
Proof. intros N c H. destruct (Ascii.eqb_spec c NUL) as [->|]; [contradiction|reflexivity]. Qed.
Lemma aliases_have_spec al : Forall word al -> forall rest fuel name, length al < fuel ->
  exists b, aliases_have fuel (List.concat (map (fun a => a ++ [NUL]) al) ++ NUL :: rest) name = Ok b /\ (b = true <-> In name al).
Proof.
  induction 1 as [|a al (N & W) F IH]; intros rest fuel name L; (destruct fuel as [|fuel]; [cbn [length] in L; lia|]).
  - exists false. split; [|split; [discriminate|intros []]]. cbn [map List.concat app aliases_have]. cbn [span]. rewrite Ascii.eqb_refl. cbn [negb].
    reflexivity.
  - cbn [map List.concat]. rewrite <- !app_assoc. cbn [app aliases_have].
    set (t := List.concat (map (fun a => a ++ [NUL]) al) ++ NUL :: rest).
    rewrite (span_all _ a (NUL :: t)); [|apply not_nul_true; exact W|rewrite Ascii.eqb_refl; reflexivity].
    rewrite app_length. cbn [length]. replace (length a =? length a + S (length t)) with false by (symmetry; apply Nat.eqb_neq; lia).
    replace (length a =? 0) with false by (symmetry; apply Nat.eqb_neq; destruct a; [contradiction|cbn; lia]).
    rewrite firstn_app, Nat.sub_diag, firstn_all. cbn [firstn]. rewrite app_nil_r.
    destruct (list_eq_dec ascii_dec a name) as [E|E].
    + exists true. split; [reflexivity|]. split; [intros _; left; exact E|reflexivity].
    + rewrite skipn_app. rewrite skipn_all2 by lia. replace (length a + 1 - length a) with 1 by lia. cbn [skipn app].
      destruct (IH rest fuel name) as (b & EB & B); [cbn [length] in L; lia|]. fold t in EB. rewrite EB. exists b. split; [reflexivity|]. rewrite B. split; [intros H; right; exact H|].
      intros [H|H]; [contradiction|exact H].
Qed.
Lemma concat_long al : length al <= length (List.concat (map (fun a => a ++ [NUL]) al)).
Proof. induction al as [|a al IH]; [cbn; lia|]. cbn [map List.concat length]. rewrite !app_length. cbn [length]. lia. Qed.
Lemma aliases_fun a al al' : aliases_are a al -> aliases_are a al' -> al = al'.
Proof.
  intros (F & r & E) (F' & r' & E'). subst a. revert al' F' E'. induction F as [|x al (N & W) F IH]; intros al' F' E'.
  - destruct F' as [|y al' (N' & W') F']; [reflexivity|]. exfalso. cbn in E'. destruct y as [|c y]; [contradiction|]. cbn in E'. injection E' as E1 E2.
    apply W'. left. symmetry. exact E1.
  - destruct F' as [|y al' (N' & W') F'].
    + exfalso. cbn in E'. destruct x as [|c x]; [contradiction|]. cbn in E'. injection E' as E1 E2. apply W. left. exact E1.
    + cbn [map List.concat] in E'. rewrite <- !app_assoc in E'. cbn [app] in E'.
      assert (S1 : span (fun c => negb (Ascii.eqb c NUL)) (x ++ NUL :: List.concat (map (fun a => a ++ [NUL]) al) ++ NUL :: r) = length x)
        by (apply span_all; [apply not_nul_true; exact W|rewrite Ascii.eqb_refl; reflexivity]).
      assert (S2 : span (fun c => negb (Ascii.eqb c NUL)) (y ++ NUL :: List.concat (map (fun a => a ++ [NUL]) al') ++ NUL :: r') = length y)
        by (apply span_all; [apply not_nul_true; exact W'|rewrite Ascii.eqb_refl; reflexivity]).
      assert (L : length x = length y) by (rewrite <- S1, <- S2; f_equal; exact E').
      assert (X : x = y).
      { apply (f_equal (firstn (length x))) in E'. rewrite !firstn_app, Nat.sub_diag in E'. rewrite firstn_all in E'. rewrite L in E'. rewrite firstn_all, Nat.sub_diag in E'.
        cbn [firstn] in E'. rewrite !app_nil_r in E'. exact E'. }
      subst y. f_equal. apply IH; [exact F'|]. apply app_inv_head in E'. injection E' as E'. exact E'.
Qed.

(* Finding *)
Lemma find_spec l name : Forall good_aliases l -> exists o, find_module l name = Ok o /\
  match o with
  | Some m => exists pre post, l = pre ++ m :: post /\ called m name /\ forall x, In x pre -> ~ called x name
  | None => forall x, In x l -> ~ called x name
  end.
Proof.
  induction 1 as [|m l G F IH]; [exists None; split; [reflexivity|intros x []]|]. cbn [find_module].
  destruct (list_eq_dec ascii_dec (m_name m) name) as [E|E].
  - exists (Some m). split; [reflexivity|]. exists [], l. split; [reflexivity|]. split; [left; exact E|intros x []].
  - assert (A : exists b, match m_aliases m with None => Ok false | Some a => aliases_have (S (length a)) a name end = Ok b /\ (b = true <-> called m name)).
    { unfold called. destruct (m_aliases m) as [a|] eqn:EA.
      - destruct (G a EA) as (al & W & rest & ->). destruct (aliases_have_spec al W rest (S (length (List.concat (map (fun a => a ++ [NUL]) al) ++ NUL :: rest))) name) as (b & -> & B).
        { rewrite app_length. pose proof (concat_long al). lia. }
        exists b. split; [reflexivity|]. rewrite B. split.
        + intros H. right. eexists. exists al. split; [reflexivity|]. split; [split; [exact W|exists rest; reflexivity]|exact H].
        + intros [H|(a' & al' & E1 & A1 & H)]; [contradiction|]. injection E1 as <-.
          rewrite (aliases_fun (List.concat (map (fun a => a ++ [NUL]) al) ++ NUL :: rest) al al'); [exact H|split; [exact W|exists rest; reflexivity]|exact A1].
      - exists false. split; [reflexivity|]. split; [discriminate|]. intros [H|(a' & al' & E1 & _)]; [contradiction|discriminate E1]. }
    destruct A as (b & -> & B). cbn [obind]. destruct b.
    + exists (Some m). split; [reflexivity|]. exists [], l. split; [reflexivity|]. split; [apply B; reflexivity|intros x []].
    + assert (NC : ~ called m name) by (intros H; apply B in H; discriminate H). destruct IH as (o & -> & R). exists o. split; [reflexivity|]. destruct o as [x|].
      * destruct R as (pre & post & -> & C & N). exists (m :: pre), post. split; [reflexivity|]. split; [exact C|]. intros y [<-|H]; [exact NC|exact (N y H)].
      * intros x [<-|H]; [exact NC|exact (R x H)].
Qed.

(* Names *)
Lemma last_part_no_slash s : no_slash (last_part s).
Proof.
  unfold last_part, no_slash, SLASH. intros H. apply in_rev in H. induction (rev s) as [|c t IH]; [destruct H|]. cbn [span] in H.
  destruct (Ascii.eqb_spec c "/") as [->|N]; cbn [negb firstn] in H; [destruct H|]. destruct H as [H|H]; [contradiction|exact (IH H)].
Qed.
Lemma last_part_is b n : no_slash n -> last_part (b ++ [SLASH] ++ n) = n.
Proof.
  intros N. unfold last_part. rewrite !rev_app_distr. cbn [rev app]. rewrite <- app_assoc. cbn [app].
  rewrite span_all; [|intros c H; apply in_rev in H; destruct (Ascii.eqb_spec c SLASH) as [->|]; [contradiction|reflexivity]|rewrite Ascii.eqb_refl; reflexivity].
  rewrite firstn_app, Nat.sub_diag, firstn_all. cbn [firstn]. rewrite app_nil_r. apply rev_involutive.
Qed.
Lemma last_part_suffix s : exists t, s = t ++ last_part s.
Proof.
  exists (rev (skipn (span (fun c => negb (Ascii.eqb c SLASH)) (rev s)) (rev s))). unfold last_part. rewrite <- rev_app_distr, firstn_skipn, rev_involutive. reflexivity.
Qed.
Lemma last_part_app b n : last_part (b ++ [SLASH] ++ n) = last_part (SLASH :: n).
Proof.
  unfold last_part. cbn [app rev]. rewrite rev_app_distr. cbn [rev]. rewrite <- app_assoc. cbn [app].
  assert (K : forall (s u v : bytes), firstn (span (fun c => negb (Ascii.eqb c SLASH)) (s ++ SLASH :: u)) (s ++ SLASH :: u) =
     firstn (span (fun c => negb (Ascii.eqb c SLASH)) (s ++ SLASH :: v)) (s ++ SLASH :: v)).
  { induction s as [|c s IH]; intros u v; cbn [app span].
    - rewrite Ascii.eqb_refl. reflexivity.
    - destruct (negb (Ascii.eqb c SLASH)); [|reflexivity]. cbn [firstn]. f_equal. apply IH. }
  rewrite (K (rev n) (rev b) []). reflexivity.
Qed.

(* Symbols *)
Lemma load_symbol_spec l p v : load_symbol l p = Some v -> symbol_value l (fst p) (snd p) v.
Proof.
  unfold load_symbol, symbol_value, BIT_FAIL, BIT_INDIRECT. destruct (l_sym l (fst p)) as [(a, c)|].
  - intros [= <-]. destruct (N.testbit (snd p) 2); split; try discriminate; reflexivity.
  - destruct (N.testbit (snd p) 1); [discriminate|]. intros [= <-]. split; reflexivity.
Qed.
Lemma load_symbol_none l p : load_symbol l p = None <-> (N.testbit (snd p) 1 = true /\ ~ has l (fst p)).
Proof.
  unfold load_symbol, BIT_FAIL, has. destruct (l_sym l (fst p)) as [(a, c)|].
  - split; [discriminate|]. intros (_ & H). exfalso. apply H. eexists. reflexivity.
  - destruct (N.testbit (snd p) 1).
    + split; [|reflexivity]. intros _. split; [reflexivity|]. intros (x & H). discriminate H.
    + split; [discriminate|]. intros (H & _). discriminate H.
Qed.
Lemma load_symbols_spec l ps : match load_symbols l ps with
  | Some vs => Forall2 (fun p v => symbol_value l (fst p) (snd p) v) ps vs /\ (forall p, In p ps -> N.testbit (snd p) 1 = true -> has l (fst p))
  | None => exists p, In p ps /\ N.testbit (snd p) 1 = true /\ ~ has l (fst p)
  end.
Proof.
  induction ps as [|p ps IH]; [split; [constructor|intros p []]|]. cbn [load_symbols].
  destruct (load_symbol l p) as [v|] eqn:E.
  - destruct (load_symbols l ps) as [vs|].
    + destruct IH as (F & H). split; [constructor; [apply load_symbol_spec; exact E|exact F]|]. intros q [<-|Hq] B; [|exact (H q Hq B)].
      unfold load_symbol, BIT_FAIL in E. unfold has. destruct (l_sym l (fst p)) as [x|]; [exists x; reflexivity|]. rewrite B in E. discriminate E.
    + destruct IH as (q & Hq & B & N). exists q. split; [right; exact Hq|]. split; assumption.
  - exists p. split; [left; reflexivity|]. apply load_symbol_none. exact E.
Qed.
Lemma path_eq r n : short_path r n -> module_path r n = path_of r n.
Proof. intros H. unfold module_path, short_path, path_of in *. apply firstn_all2. change or_none with or_empty in *. change (B "/") with [SLASH] in *. lia. Qed.
Definition described (l : library) (r : reg) (id : bytes) (m : modl) : Prop :=
  m_id m = g_next r /\ m_full m = g_base r ++ B "/" ++ id /\ m_name m = last_part (SLASH :: id)
  /\ m_prio m = match l_prio l with Some p => p | None => 0%Z end
  /\ m_aliases m = match l_aliases l with Some a => a | None => None end
  /\ Forall2 (fun p v => symbol_value l (fst p) (snd p) v) (g_params r) (m_syms m)
  /\ symbol_value l (B "sid_mod_reset") 4 (m_reset m) /\ symbol_value l (B "sid_mod_exit") 6 (m_exit m).
Lemma init_spec fs r id : good_fs fs -> exists o, init_module fs r id = Ok o /\ match o with
  | Some m => exists l, fs (module_path r (last_part (SLASH :: id))) = Some l /\ loadable (g_params r) l /\ described l r id m
  | None => forall l, fs (module_path r (last_part (SLASH :: id))) = Some l -> ~ loadable (g_params r) l end.
Proof.
  intros G. unfold init_module, set_module_name. rewrite last_part_app. set (name := last_part (SLASH :: id)). unfold loadable.
  destruct (fs (module_path r name)) as [l|] eqn:EF; [|exists None; split; [reflexivity|discriminate]]. apply G in EF as (P & _).
  destruct (load_symbol l (B "sid_mod_reset", FUNCTION_FLAGS)) as [reset|] eqn:E0; [|apply load_symbol_none in E0 as (E0 & _); discriminate E0].
  destruct (load_symbol l (B "sid_mod_init", REQUIRED_FUNCTION_FLAGS)) as [init|] eqn:E1.
  2: { apply load_symbol_none in E1 as (_ & N). exists None. split; [reflexivity|]. intros l' [= <-] (H & _). exact (N H). }
  destruct (load_symbol l (B "sid_mod_exit", REQUIRED_FUNCTION_FLAGS)) as [exit|] eqn:E2.
  2: { apply load_symbol_none in E2 as (_ & N). exists None. split; [reflexivity|]. intros l' [= <-] (_ & H & _). exact (N H). }
  pose proof (load_symbols_spec l (g_params r)) as S. destruct (load_symbols l (g_params r)) as [syms|].
  2: { destruct S as (p & I & B & N). exists None. split; [reflexivity|]. intros l' [= <-] (_ & _ & H & _). exact (N (H p I B)). }
  apply load_symbol_spec in E0, E1, E2. cbn [fst snd] in E0, E1, E2.
  assert (HI : has l (B "sid_mod_init")) by (unfold symbol_value in E1; unfold has; destruct (l_sym l (B "sid_mod_init")) as [x|]; [exists x; reflexivity|destruct E1 as (_ & X); discriminate X]).
  assert (HE : has l (B "sid_mod_exit")) by (unfold symbol_value in E2; unfold has; destruct (l_sym l (B "sid_mod_exit")) as [x|]; [exists x; reflexivity|destruct E2 as (_ & X); discriminate X]).
  destruct init as [i|].
  2: { exfalso. unfold symbol_value in E1. destruct (l_sym l (B "sid_mod_init")) as [(a, c)|] eqn:EL; [|destruct E1 as (_ & X); discriminate X].
       destruct E1 as (X & _). specialize (X eq_refl). subst c. exact (P a EL). }
  destruct (Z.ltb_spec (l_init l) 0) as [L|L].
  - exists None. split; [reflexivity|]. intros l' [= <-] (_ & _ & _ & H). lia.
  - eexists. split; [reflexivity|]. exists l. split; [reflexivity|]. destruct S as (F & H).
    split; [split; [exact HI|]; split; [exact HE|]; split; [exact H|exact L]|].
    unfold described. cbn [m_id m_full m_name m_prio m_aliases m_syms m_reset m_exit].
    split; [reflexivity|]. split; [reflexivity|]. split; [reflexivity|]. split; [reflexivity|]. split; [reflexivity|]. split; [exact F|]. split; [exact E0|exact E2].
Qed.

(* Order *)
Lemma place_perm m l : Permutation (place m l) (m :: l).
Proof.
  induction l as [|k l IH]; [reflexivity|]. cbn [place]. destruct (m_prio m <? m_prio k)%Z; [reflexivity|]. rewrite IH. apply perm_swap.
Qed.
Lemma place_order m l : in_order l -> Forall (fun x => m_id x < m_id m) l -> in_order (place m l).
Proof.
  induction l as [|k l IH]; intros O F; [split; [constructor|exact I]|]. cbn [place]. destruct O as (Fk & O). inversion F as [|? ? Hk F']; subst.
  destruct (Z.ltb_spec (m_prio m) (m_prio k)) as [L|L].
  - split; [|split; [exact Fk|exact O]]. constructor; [left; exact L|]. rewrite Forall_forall in *. intros x Hx. specialize (Fk x Hx). unfold before in *. lia.
  - split; [|apply IH; assumption]. rewrite Forall_forall in *. intros x Hx. apply (Permutation_in _ (place_perm m l)) in Hx. destruct Hx as [<-|Hx].
    + unfold before. lia.
    + exact (Fk x Hx).
Qed.
Lemma filter_order (f : modl -> bool) l : in_order l -> in_order (filter f l).
Proof.
  induction l as [|m l IH]; [trivial|]. intros (F & O). cbn [filter]. destruct (f m); [|exact (IH O)]. split; [|exact (IH O)].
  rewrite Forall_forall in *. intros x Hx. apply filter_In in Hx as (Hx & _). exact (F x Hx).
Qed.
Record inv (r : reg) : Prop := Inv { inv_order : in_order (g_mods r); inv_ids : Forall (fun m => m_id m < g_next r) (g_mods r);
  inv_aliases : Forall good_aliases (g_mods r); inv_names : Forall (fun m => no_slash (m_name m) /\ m_full m = g_base r ++ B "/" ++ m_name m
     /\ length (m_syms m) = length (g_params r)) (g_mods r) }.
Definition same_reg (r r' : reg) : Prop := g_base r' = g_base r /\ g_dir r' = g_dir r /\ g_prefix r' = g_prefix r /\ g_suffix r' = g_suffix r /\ g_params r' = g_params r.
Lemma same_refl r : same_reg r r.
Proof. unfold same_reg. auto 6. Qed.
Lemma same_trans r r' r'' : same_reg r r' -> same_reg r' r'' -> same_reg r r''.
Proof. intros (A & B & C & D & E) (A' & B' & C' & D' & E'). unfold same_reg. rewrite A', B', C', D', E'. auto 6. Qed.
Lemma F2_length {A B} (R : A -> B -> Prop) l l' : Forall2 R l l' -> length l' = length l.
Proof. induction 1; cbn; congruence. Qed.
Lemma create_spec fs r id : good_fs fs -> inv r -> no_slash id -> exists r' o, create_module fs r id = Ok (r', o) /\ inv r' /\ same_reg r r' /\
  match o with
  | Some m => exists l, fs (module_path r id) = Some l /\ loadable (g_params r) l /\ described l r id m /\ m_name m = id /\ Permutation (g_mods r') (m :: g_mods r)
  | None => (forall l, fs (module_path r id) = Some l -> ~ loadable (g_params r) l) /\ g_mods r' = g_mods r end.
Proof.
  intros G [O Ids A N] NS. unfold create_module. destruct (init_spec fs r id G) as (o & -> & S). cbn [obind].
  assert (LP : last_part (SLASH :: id) = id) by exact (last_part_is [] id NS). rewrite LP in S.
  destruct o as [m|]; eexists; eexists; (split; [reflexivity|]).
  - destruct S as (l & EF & Lo & D). pose proof D as (D1 & D2 & D3 & D4 & D5 & D6 & _). rewrite LP in D3. split.
    + constructor; cbn [with_mods g_mods g_next g_base g_params].
      * apply place_order; [exact O|]. rewrite D1. exact Ids.
      * rewrite Forall_forall in *. intros x Hx. apply (Permutation_in _ (place_perm m (g_mods r))) in Hx as [<-|Hx]; [lia|]. specialize (Ids x Hx). cbn beta in Ids. lia.
      * rewrite Forall_forall in *. intros x Hx. apply (Permutation_in _ (place_perm m (g_mods r))) in Hx as [<-|Hx]; [|exact (A x Hx)].
        intros a Ha. rewrite D5 in Ha. destruct (l_aliases l) as [al|] eqn:EA; [|discriminate Ha]. apply (proj2 (G _ l EF) a). rewrite EA, Ha. reflexivity.
      * rewrite Forall_forall in *. intros x Hx. apply (Permutation_in _ (place_perm m (g_mods r))) in Hx as [<-|Hx]; [|exact (N x Hx)].
        split; [rewrite D3; exact NS|]. split; [rewrite D3; exact D2|]. exact (F2_length _ _ _ D6).
    + split; [exact (same_refl r)|]. exists l. split; [exact EF|]. split; [exact Lo|]. split; [exact D|]. split; [exact D3|]. exact (place_perm m (g_mods r)).
  - split; [|split; [exact (same_refl r)|split; [exact S|reflexivity]]]. constructor; cbn [with_mods g_mods g_next g_base g_params]; try assumption.
    rewrite Forall_forall in *. intros x Hx. specialize (Ids x Hx). cbn beta in Ids. lia.
Qed.
Lemma load_mod_spec fs r name : good_fs fs -> inv r -> no_slash name -> exists r' o, load_mod fs r name = Ok (r', o) /\ inv r' /\ same_reg r r' /\
  (name = [] -> o = None /\ r' = r) /\
  (name <> [] -> match o with
   | Some m => In m (g_mods r') /\ called m name /\ ((In m (g_mods r) /\ r' = r)
       \/ ((forall x, In x (g_mods r) -> ~ called x name) /\ exists l, fs (module_path r name) = Some l /\ loadable (g_params r) l /\ described l r name m /\ m_name m = name /\ Permutation (g_mods r') (m :: g_mods r)))
   | None => (forall x, In x (g_mods r) -> ~ called x name) /\ (forall l, fs (module_path r name) = Some l -> ~ loadable (g_params r) l) /\ g_mods r' = g_mods r end).
Proof.
  intros G I NS. unfold load_mod. destruct name as [|c name].
  - exists r, None. split; [reflexivity|]. split; [exact I|]. split; [apply same_refl|]. split; [intros _; split; reflexivity|]. intros H. contradiction.
  - destruct (find_spec (g_mods r) (c :: name) (inv_aliases r I)) as (o & -> & F). cbn [obind]. destruct o as [m|].
    + exists r, (Some m). split; [reflexivity|]. split; [exact I|]. split; [apply same_refl|]. split; [discriminate|]. intros _.
      destruct F as (pre & post & E & C & _). assert (Hm : In m (g_mods r)) by (rewrite E; apply in_or_app; right; left; reflexivity).
      split; [exact Hm|]. split; [exact C|]. left. split; [exact Hm|reflexivity].
    + destruct (create_spec fs r (c :: name) G I NS) as (r' & o & -> & I' & SR & S). exists r', o. split; [reflexivity|]. split; [exact I'|]. split; [exact SR|].
      split; [discriminate|]. intros _. destruct o as [m|].
      * destruct S as (l & EF & Lo & D & Nm & P). split; [apply (Permutation_in _ (Permutation_sym P)); left; reflexivity|]. split; [left; exact Nm|].
        right. split; [exact F|]. exists l. split; [exact EF|]. split; [exact Lo|]. split; [exact D|]. split; [exact Nm|exact P].
      * destruct S as (S1 & S2). split; [exact F|]. split; [exact S1|exact S2].
Qed.

(* Files *)
Lemma same_len ic a b : same ic a b -> length a = length b.
Proof. unfold same. destruct ic; [|congruence]. intros H. apply (f_equal (@length _)) in H. rewrite !map_length in H. exact H. Qed.
Lemma file_name r n f : file_of r n f -> n = file_module r f.
Proof.
  intros (p & s & -> & Sp & Ss & _). unfold same_letters in Sp, Ss. apply same_len in Sp, Ss. unfold file_module. change or_empty with or_none. rewrite <- Sp, <- Ss.
  rewrite !app_length. rewrite skipn_app, Nat.sub_diag, skipn_all. cbn [app skipn].
  replace (length p + (length n + length s) - length p - length s) with (length n) by lia. rewrite firstn_app, Nat.sub_diag, firstn_all. cbn [firstn]. symmetry. apply app_nil_r.
Qed.
Lemma is_file r f : is_module_file r f = true <-> file_of r (file_module r f) f.
Proof.
  unfold is_module_file. split.
  - intros H. apply andb_true_iff in H as (D & H). destruct (combstr f (g_prefix r) None (g_suffix r) true) as [i|] eqn:E; [|discriminate H].
    apply combstr_lemma in E as (L & P & S & _). change or_empty with or_none in *. cbn [or_none length] in L.
    destruct P as (a & p & b & Ea & La & Sp). destruct a; [|discriminate La]. cbn [app] in Ea.
    destruct S as (a & s & b' & Es & Ls & Ss). pose proof (same_len _ _ _ Sp) as Lp. pose proof (same_len _ _ _ Ss) as Lss.
    assert (b' = []).
    { apply (f_equal (@length _)) in Es. rewrite !app_length in Es. destruct b'; [reflexivity|]. cbn [length] in Es. lia. } subst b'.
    rewrite app_nil_r in Es. unfold file_module. change or_empty with or_none. rewrite <- Lp, <- Lss.
    assert (La' : length p <= length a) by (rewrite Ls; lia).
    assert (Eb : a = p ++ skipn (length p) a).
    { rewrite <- (firstn_skipn (length p) a) at 1. f_equal. transitivity (firstn (length p) f).
      - rewrite Es, firstn_app. replace (length p - length a) with 0 by lia. cbn [firstn]. symmetry. apply app_nil_r.
      - rewrite Ea, firstn_app, Nat.sub_diag, firstn_all. cbn [firstn]. apply app_nil_r. }
    exists p, s. split; [|split; [exact Sp|split; [exact Ss|]]].
    + transitivity (a ++ s); [exact Es|]. rewrite Eb at 1. rewrite <- app_assoc. f_equal. f_equal. rewrite Es at 1 2. rewrite app_length, skipn_app.
      replace (length p - length a) with 0 by lia. cbn [skipn]. rewrite firstn_app. rewrite skipn_length.
      replace (length a + length s - length p - length s - (length a - length p)) with 0 by lia. cbn [firstn]. rewrite app_nil_r.
      symmetry. apply firstn_all2. rewrite skipn_length. lia.
    + intros t ->. discriminate D.
  - intros (p & s & E & Sp & Ss & D). unfold same_letters in Sp, Ss. pose proof (same_len _ _ _ Sp) as Lp. pose proof (same_len _ _ _ Ss) as Ls. apply andb_true_iff. split.
    + destruct f as [|c f]; [reflexivity|]. destruct (Ascii.eqb_spec c ".") as [->|]; [exfalso; exact (D f eq_refl)|reflexivity].
    + assert (X : combstr f (g_prefix r) None (g_suffix r) true = Some 0).
      { apply combstr_lemma. change or_empty with or_none. set (n := file_module r f) in *. clearbody n. subst f. rewrite !app_length. split; [cbn [or_none length]; lia|]. split.
        - exists [], p, (n ++ s). split; [reflexivity|]. split; [reflexivity|exact Sp].
        - split; [|reflexivity]. exists (p ++ n), s, []. split; [rewrite app_nil_r, <- app_assoc; reflexivity|]. split; [rewrite app_length; lia|exact Ss]. }
      rewrite X. reflexivity.
Qed.
Lemma file_same r r' n f : same_reg r r' -> file_of r' n f <-> file_of r n f.
Proof. intros (_ & _ & A & B & _). unfold file_of. rewrite A, B. reflexivity. Qed.
Lemma file_module_no_slash r f : no_slash f -> no_slash (file_module r f).
Proof.
  intros N H. apply N. unfold file_module in H. 
  assert (K : forall (x : bytes) k (c : byte), In c (firstn k x) -> In c x) by (intros x k c Hc; rewrite <- (firstn_skipn k x); apply in_or_app; left; exact Hc).
  apply K in H. rewrite <- (firstn_skipn (length (or_empty (g_prefix r))) f). apply in_or_app. right. exact H.
Qed.
Lemma load_files_inv fs files : good_fs fs -> Forall (fun f => no_slash f) files -> forall r found, inv r ->
  exists r' k, load_files fs r files found = Ok (r', k) /\ inv r' /\ same_reg r r'.
Proof.
  intros G. induction 1 as [|f files N F IH]; intros r found I; [exists r, found; split; [reflexivity|]; split; [exact I|apply same_refl]|].
  cbn [load_files]. destruct (is_module_file r f); [|exact (IH r found I)].
  destruct (SID_MOD_NAME_MAX_LEN <? length (file_module r f)); [exact (IH r (S found) I)|].
  destruct (create_spec fs r (file_module r f) G I (file_module_no_slash r f N)) as (r1 & o & -> & I1 & S1 & _). cbn [obind fst].
  destruct (IH r1 (S found) I1) as (r' & k & -> & I' & S'). exists r', k. split; [reflexivity|]. split; [exact I'|]. exact (same_trans _ _ _ S1 S').
Qed.
Lemma file_module_short r f : length (file_module r f) <= length f.
Proof. unfold file_module. rewrite firstn_length, skipn_length. lia. Qed.
Lemma load_files_spec fs r0 files : good_fs fs -> Forall (good_file r0) files -> forall r found, inv r -> same_reg r0 r ->
  exists r' k names, load_files fs r files found = Ok (r', k) /\ inv r' /\ same_reg r0 r' /\ gives fs r0 files names
    /\ Permutation (map m_name (g_mods r')) (names ++ map m_name (g_mods r)) /\ found <= k /\ (k = found <-> forall f n, In f files -> ~ file_of r0 n f).
Proof.
  intros G. induction 1 as [|f files (N & Len & Sh) F IH]; intros r found I SR.
  - exists r, found, []. split; [reflexivity|]. split; [exact I|]. split; [exact SR|]. split; [constructor|]. split; [reflexivity|]. split; [lia|].
    split; [intros _ f n []|reflexivity].
  - cbn [load_files].
    assert (FE : file_module r f = file_module r0 f) by (destruct SR as (_ & _ & A & B & _); unfold file_module; rewrite A, B; reflexivity).
    destruct (is_module_file r f) eqn:E.
    + apply is_file in E. rewrite FE in *. apply (file_same r0 r _ _ SR) in E.
      replace (SID_MOD_NAME_MAX_LEN <? length (file_module r0 f)) with false
        by (symmetry; apply Nat.ltb_ge; pose proof (file_module_short r0 f); unfold SID_MOD_NAME_MAX_LEN; lia).
      assert (PE : module_path r (file_module r0 f) = path_of r0 (file_module r0 f)).
      { transitivity (module_path r0 (file_module r0 f)); [destruct SR as (_ & A & B & C & _); unfold module_path; rewrite A, B, C; reflexivity|]. apply path_eq, Sh, E. }
      assert (PP : g_params r = g_params r0) by (destruct SR as (_ & _ & _ & _ & A); exact A).
      destruct (create_spec fs r (file_module r0 f) G I (file_module_no_slash r0 f N)) as (r1 & o & -> & I1 & S1 & R). cbn [obind fst].
      destruct (IH r1 (S found) I1 (same_trans _ _ _ SR S1)) as (r' & k & names & -> & I' & S' & GV & P & K1 & K2). rewrite PE, PP in R.
      destruct o as [m|].
      * destruct R as (l & EF & Lo & D & Nm & PM). exists r', k, (file_module r0 f :: names). split; [reflexivity|]. split; [exact I'|]. split; [exact S'|].
        split; [exact (gives_module fs r0 f _ l files names E EF Lo GV)|]. split.
        -- rewrite P. apply (Permutation_map m_name) in PM. rewrite PM. cbn [map]. rewrite Nm. symmetry. apply Permutation_middle.
        -- split; [lia|]. split; [lia|]. intros H. exfalso. exact (H f _ (or_introl eq_refl) E).
      * destruct R as (NL & EM). exists r', k, names. split; [reflexivity|]. split; [exact I'|]. split; [exact S'|].
        split; [exact (gives_failing fs r0 f _ files names E NL GV)|]. split; [rewrite P, EM; reflexivity|].
        split; [lia|]. split; [lia|]. intros H. exfalso. exact (H f _ (or_introl eq_refl) E).
    + assert (NE : forall n, ~ file_of r0 n f).
      { intros n H. rewrite (file_name r0 n f H) in H. apply (file_same r0 r _ _ SR) in H. rewrite <- FE in H. apply is_file in H. rewrite H in E. discriminate E. }
      destruct (IH r found I SR) as (r' & k & names & -> & I' & S' & GV & P & K1 & K2). exists r', k, names. split; [reflexivity|]. split; [exact I'|]. split; [exact S'|].
      split; [exact (gives_other fs r0 f files names NE GV)|]. split; [exact P|]. split; [exact K1|]. rewrite K2. split.
      * intros H g n [<-|Hg]; [apply NE|exact (H g n Hg)].
      * intros H g n Hg. exact (H g n (or_intror Hg)).
Qed.
Lemma load_mods_lemma fs r files : good_fs fs -> inv r -> Forall (good_file r) files ->
  exists r' code names, load_mods fs r (inl files) = Ok (r', code) /\ inv r' /\ gives fs r files names
    /\ Permutation (map m_name (g_mods r')) (names ++ map m_name (g_mods r))
    /\ ((code = 0%Z /\ exists f n, In f files /\ file_of r n f) \/ (code = (- 123)%Z /\ forall f n, In f files -> ~ file_of r n f)).
Proof.
  intros G I F. unfold load_mods. destruct (load_files_spec fs r files G F r 0 I (same_refl r)) as (r' & k & names & -> & I' & _ & GV & P & _ & K).
  cbn [obind fst snd]. exists r'. destruct (Nat.eqb_spec k 0) as [->|NK].
  - exists (- 123)%Z, names. split; [reflexivity|]. split; [exact I'|]. split; [exact GV|]. split; [exact P|]. right. split; [reflexivity|]. apply K. reflexivity.
  - exists 0%Z, names. split; [reflexivity|]. split; [exact I'|]. split; [exact GV|]. split; [exact P|]. left. split; [reflexivity|].
    destruct (existsb (is_module_file r) files) eqn:E.
    + apply existsb_exists in E as (f & Hf & E). apply is_file in E. exists f, (file_module r f). split; assumption.
    + exfalso. apply NK, K. intros f n Hf H. rewrite (file_name r n f H) in H. apply is_file in H.
      assert (X : existsb (is_module_file r) files = true) by (apply existsb_exists; exists f; split; assumption). rewrite X in E. discriminate E.
Qed.

(* Histories *)
Lemma unload_inv r id r' : inv r -> unload_mod r id = Ok r' -> inv r' /\ same_reg r r' /\ (forall m, In m (g_mods r') <-> In m (g_mods r) /\ m_id m <> id).
Proof.
  intros I. unfold unload_mod. destruct (find (fun m => m_id m =? id) (g_mods r)) as [m|] eqn:E.
  - destruct (m_exit m); [|discriminate]. intros [= <-]. destruct I as [O Ids A N]. split; [|split; [exact (same_refl r)|]].
    + constructor; cbn [with_mods g_mods g_next g_base g_params]; [apply filter_order; exact O| | |].
      all: rewrite Forall_forall in *; intros x Hx; apply filter_In in Hx as (Hx & _); auto.
    + intros x. cbn [with_mods g_mods]. rewrite filter_In. destruct (Nat.eqb_spec (m_id x) id); cbn [negb]; split; intros (H1 & H2); split; try assumption; try discriminate; try contradiction.
      reflexivity.
  - intros [= <-]. split; [exact I|]. split; [apply same_refl|]. intros x. split; [|intros (H & _); exact H]. intros H. split; [exact H|]. intros X.
    pose proof (find_none _ _ E x H) as Y. cbn beta in Y. apply Nat.eqb_neq in Y. contradiction.
Qed.
Lemma step_inv r o r' : inv r -> good_op r o -> step r o = Ok r' -> inv r' /\ same_reg r r'.
Proof.
  intros I G. destruct o as [fs name|fs [files|e]|id]; cbn [step].
  - destruct G as (G & N). destruct (load_mod_spec fs r name G I N) as (r1 & o & -> & I1 & S1 & _). cbn [obind fst]. intros [= <-]. split; assumption.
  - destruct G as (G & N). unfold load_mods. destruct (load_files_inv fs files G N r 0 I) as (r1 & k & -> & I1 & S1). cbn [obind fst]. intros [= <-]. split; assumption.
  - cbn [load_mods obind fst]. intros [= <-]. split; [exact I|apply same_refl].
  - intros H. destruct (unload_inv r id r' I H) as (A & B & _). split; assumption.
Qed.
Lemma history_inv ops : forall r r', inv r -> Forall (good_op r) ops -> history r ops = Ok r' -> inv r' /\ same_reg r r'.
Proof.
  induction ops as [|o ops IH]; intros r r' I F; cbn [history].
  - intros [= <-]. split; [exact I|apply same_refl].
  - inversion F as [|? ? G F']; subst. destruct (step r o) as [r1|] eqn:E; [|discriminate]. cbn [obind]. intros H.
    destruct (step_inv r o r1 I G E) as (I1 & S1). assert (F1 : Forall (good_op r1) ops).
    { rewrite Forall_forall in *. intros x Hx. specialize (F' x Hx). exact F'. }
    destruct (IH r1 r' I1 F1 H) as (I' & S'). split; [exact I'|]. exact (same_trans _ _ _ S1 S').
Qed.
Lemma fresh_inv b d p s ps : inv (Reg b d p s ps [] 0).
Proof. constructor; cbn; try constructor; exact I. Qed.
Lemma load_again fs fs' r name r1 m : good_fs fs -> inv r -> no_slash name -> load_mod fs r name = Ok (r1, Some m) -> load_mod fs' r1 name = Ok (r1, Some m).
Proof.
  intros G I N H. destruct name as [|c name]; [discriminate H|].
  destruct (load_mod_spec fs r (c :: name) G I N) as (r1' & o & E & I1 & _ & _ & S). rewrite E in H. injection H as -> ->. specialize (S ltac:(discriminate)).
  destruct S as (Hm & C & S). destruct (find_spec (g_mods r1) (c :: name) (inv_aliases r1 I1)) as (o & Fo & F). unfold load_mod. rewrite Fo. cbn [obind].
  destruct S as [(Hr & ->)|(NC & l & _ & _ & _ & _ & P)].
  - unfold load_mod in E. rewrite Fo in E. cbn [obind] in E. destruct o as [m'|].
    + injection E as ->. reflexivity.
    + exfalso. exact (F m Hm C).
  - destruct o as [m'|]; [|exfalso; exact (F m Hm C)]. destruct F as (pre & post & Er & C' & _).
    assert (Hm' : In m' (g_mods r1)) by (rewrite Er; apply in_or_app; right; left; reflexivity).
    apply (Permutation_in _ P) in Hm' as [->|Hm']; [reflexivity|]. exfalso. exact (NC m' Hm' C').
Qed.
Lemma load_mod_lemma fs b d p s ps ops r name : Forall (good_op (Reg b d p s ps [] 0)) ops -> history (Reg b d p s ps [] 0) ops = Ok r ->
  good_fs fs -> name <> [] -> no_slash name -> short_path r name -> exists r' o, load_mod fs r name = Ok (r', o) /\ match o with
  | Some m => In m (g_mods r') /\ called m name /\ ((In m (g_mods r) /\ r' = r)
       \/ ((forall x, In x (g_mods r) -> ~ called x name) /\ Permutation (g_mods r') (m :: g_mods r) /\ m_name m = name /\ m_full m = b ++ B "/" ++ name
           /\ exists l, fs (path_of r name) = Some l /\ loadable ps l /\ Forall2 (fun p v => symbol_value l (fst p) (snd p) v) ps (m_syms m)
              /\ m_prio m = match l_prio l with Some p => p | None => 0%Z end
              /\ (forall a, m_aliases m = Some a <-> l_aliases l = Some (Some a))))
  | None => g_mods r' = g_mods r /\ (forall x, In x (g_mods r) -> ~ called x name) /\ (forall l, fs (path_of r name) = Some l -> ~ loadable ps l)
  end.
Proof.
  intros F H G NE N Sh. destruct (history_inv ops _ r (fresh_inv b d p s ps) F H) as (I & SR). unfold same_reg in SR. cbn [g_base g_dir g_prefix g_suffix g_params] in SR.
  destruct SR as (Eb & _ & _ & _ & Ep).
  destruct (load_mod_spec fs r name G I N) as (r' & o & -> & _ & _ & _ & S). specialize (S NE). exists r', o. split; [reflexivity|].
  rewrite (path_eq r name Sh), Ep in S. destruct o as [m|].
  - destruct S as (Hm & C & S). split; [exact Hm|]. split; [exact C|]. destruct S as [S|(NC & l & EF & Lo & D & Nm & P)]; [left; exact S|]. right.
    split; [exact NC|]. split; [exact P|]. split; [exact Nm|]. destruct D as (_ & D2 & _ & D4 & D5 & D6 & _). rewrite Eb in D2. rewrite Ep in D6. split; [exact D2|].
    exists l. split; [exact EF|]. split; [exact Lo|]. split; [exact D6|]. split; [exact D4|]. intros a. rewrite D5. destruct (l_aliases l) as [x|]; split; congruence.
  - destruct S as (NC & NL & E). split; [exact E|]. split; [exact NC|exact NL].
Qed.
Lemma history_lemma b d p s ps ops r : Forall (good_op (Reg b d p s ps [] 0)) ops -> history (Reg b d p s ps [] 0) ops = Ok r ->
  in_order (g_mods r) /\ Forall (fun m => no_slash (m_name m) /\ m_full m = b ++ B "/" ++ m_name m /\ length (m_syms m) = length ps) (g_mods r).
Proof.
  intros F H. destruct (history_inv ops _ r (fresh_inv b d p s ps) F H) as ([O _ _ N] & SR). unfold same_reg in SR. cbn [g_base g_dir g_prefix g_suffix g_params] in SR.
  destruct SR as (Eb & _ & _ & _ & Ep). rewrite Eb, Ep in N. split; [exact O|exact N].
Qed.
Lemma get_lemma b d p s ps ops r name : Forall (good_op (Reg b d p s ps [] 0)) ops -> history (Reg b d p s ps [] 0) ops = Ok r -> name <> [] ->
  exists o, get_mod r name = Ok o /\ match o with
  | Some m => exists pre post, g_mods r = pre ++ m :: post /\ called m name /\ forall x, In x pre -> ~ called x name
  | None => forall x, In x (g_mods r) -> ~ called x name
  end.
Proof.
  intros F H NE. destruct (history_inv ops _ r (fresh_inv b d p s ps) F H) as (I & _). destruct name as [|c name]; [contradiction|].
  exact (find_spec (g_mods r) (c :: name) (inv_aliases r I)).
Qed.
Lemma again_lemma fs fs' b d p s ps ops r name r1 m : Forall (good_op (Reg b d p s ps [] 0)) ops -> history (Reg b d p s ps [] 0) ops = Ok r -> good_fs fs ->
  no_slash name -> load_mod fs r name = Ok (r1, Some m) -> load_mod fs' r1 name = Ok (r1, Some m).
Proof. intros F H G N. destruct (history_inv ops _ r (fresh_inv b d p s ps) F H) as (I & _). exact (load_again fs fs' r name r1 m G I N). Qed.
Lemma dir_lemma fs b d p s ps ops r files : Forall (good_op (Reg b d p s ps [] 0)) ops -> history (Reg b d p s ps [] 0) ops = Ok r -> good_fs fs ->
  Forall (good_file r) files -> exists r' code names, load_mods fs r (inl files) = Ok (r', code) /\ gives fs r files names
    /\ Permutation (map m_name (g_mods r')) (names ++ map m_name (g_mods r))
    /\ ((code = 0%Z /\ exists f n, In f files /\ file_of r n f) \/ (code = (- 123)%Z /\ forall f n, In f files -> ~ file_of r n f)).
Proof.
  intros F H G N. destruct (history_inv ops _ r (fresh_inv b d p s ps) F H) as (I & _).
  destruct (load_mods_lemma fs r files G I N) as (r' & code & names & E & _ & GV & P & C). exists r', code, names. auto.
Qed.
Lemma unload_lemma b d p s ps ops r id : Forall (good_op (Reg b d p s ps [] 0)) ops -> history (Reg b d p s ps [] 0) ops = Ok r ->
  (forall m, In m (g_mods r) -> m_exit m <> None) -> exists r', unload_mod r id = Ok r' /\ forall m, In m (g_mods r') <-> In m (g_mods r) /\ m_id m <> id.
Proof.
  intros F H X. destruct (history_inv ops _ r (fresh_inv b d p s ps) F H) as (I & _). destruct (unload_mod r id) as [r'|] eqn:E.
  - exists r'. split; [reflexivity|]. apply (unload_inv r id r' I E).
  - exfalso. unfold unload_mod in E. destruct (find (fun m => m_id m =? id) (g_mods r)) as [m|] eqn:EF; [|discriminate E].
    apply find_some in EF as (Hm & _). specialize (X m Hm). destruct (m_exit m); [discriminate E|contradiction].
Qed.
