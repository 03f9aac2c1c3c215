From Verif Require Import Base Tok_Model UtilStr_Model UtilStr_Spec BaseUtil_Model BaseUtil_Proofs Doc_Model ModName_Model ModName_Spec.
Local Open Scope nat_scope.

Lemma pieces_line l rest n cur : ~ In LF l -> length l < n -> n <= 79 ->
  pieces n cur (l ++ LF :: rest) = (rev cur ++ l ++ [LF]) :: pieces 79 [] rest.
Proof.
  revert n cur. induction l as [|c l IH]; intros n cur NL L U; cbn [app length] in *.
  - cbn [pieces]. rewrite Ascii.eqb_refl. cbn [orb]. cbn [rev]. reflexivity.
  - cbn [pieces]. destruct (Ascii.eqb_spec c (ascii_of_nat 10)) as [->|E]; [exfalso; apply NL; left; reflexivity|].
    replace (n <=? 1) with false by (symmetry; apply Nat.leb_gt; lia). cbn [orb].
    rewrite IH; [|intros H; apply NL; right; exact H|lia|lia]. cbn [rev]. rewrite <- app_assoc. reflexivity.
Qed.
Lemma pieces_lines ls rest : Forall good_line ls ->
  pieces 79 [] (List.concat (map (fun l => l ++ [LF]) ls) ++ rest) = map (fun l => l ++ [LF]) ls ++ pieces 79 [] rest.
Proof.
  induction 1 as [|l ls (G & L & _) F IH]; [reflexivity|]. cbn [map List.concat]. rewrite <- !app_assoc. cbn [app].
  rewrite pieces_line; [|exact G|lia|lia]. cbn [rev app]. rewrite IH. reflexivity.
Qed.
Lemma span_all p l t : (forall c, In c l -> p c = true) -> (match t with c :: _ => p c = false | [] => True end) -> span p (l ++ t) = length l.
Proof.
  intros H T. induction l as [|c l IH]; cbn [app length].
  - destruct t as [|c t]; [reflexivity|]. cbn [span]. rewrite T. reflexivity.
  - cbn [span]. rewrite (H c (or_introl eq_refl)), IH; [reflexivity|]. intros x Hx. apply H. right. exact Hx.
Qed.
Lemma digit_is c : digit c -> isdigit c = true.
Proof. unfold digit, isdigit. intros H. lia. Qed.
Lemma digit_not_space c : digit c -> isspace c = false.
Proof.
  unfold digit. intros H. destruct (isspace c) eqn:E; [|reflexivity]. unfold isspace, inset in E. apply existsb_exists in E as (x & Hx & E).
  apply Ascii.eqb_eq in E. subst x. cbn in Hx. decompose [or] Hx; subst; try contradiction; cbv in H; lia.
Qed.
Lemma digits_value_dec a s : digits_value a s = fold_left (fun a c => (10 * a + (N_of_ascii c - 48))%N) s a.
Proof. revert a. induction s as [|c s IH]; intros a; [reflexivity|]. cbn [digits_value fold_left]. apply IH. Qed.
Lemma atoi_small ds : (Z.of_N (dec_value ds) < 2 ^ 31)%Z -> atoi ds = Z.of_N (dec_value ds).
Proof.
  intros H. unfold atoi. rewrite digits_value_dec. fold (dec_value ds). set (v := dec_value ds) in *. clearbody v.
  rewrite N.min_l by lia. rewrite Z.mod_small by lia. destruct (Z.ltb_spec (Z.of_N v) 2147483648); lia.
Qed.
Lemma line_driver m e : good_driver e -> line_match m (driver_line e) = if (dr_major e =? m)%Z then Some (Ok (dr_name e ++ [LF])) else None.
Proof.
  intros (N & D & M & P & L). unfold line_match, driver_line.
  assert (S1 : span isspace (repeat " "%char (dr_pad e) ++ dr_digits e ++ " "%char :: dr_name e ++ [LF]) = dr_pad e).
  { rewrite span_all with (l := repeat " "%char (dr_pad e)).
    - apply repeat_length.
    - intros c H. apply repeat_spec in H. subst c. reflexivity.
    - destruct (dr_digits e) as [|c ds] eqn:E; [contradiction|]. apply digit_not_space. apply D. left. reflexivity. }
  rewrite S1, skipn_app, repeat_length, Nat.sub_diag, skipn_all2 by (rewrite repeat_length; lia). cbn [skipn app].
  assert (S2 : span isdigit (dr_digits e ++ " "%char :: dr_name e ++ [LF]) = length (dr_digits e)).
  { apply span_all; [intros c H; apply digit_is, D, H|reflexivity]. }
  rewrite S2, firstn_app, Nat.sub_diag, firstn_all, skipn_app, Nat.sub_diag, skipn_all. cbn [firstn skipn app]. rewrite app_nil_r.
  destruct (dr_digits e) as [|c ds] eqn:E; [contradiction|]. rewrite <- E. unfold dr_major in *.
  rewrite atoi_small by lia. destruct (Z.eqb_spec (Z.of_N (dec_value (dr_digits e))) 0); [lia|]. reflexivity.
Qed.
Lemma drivers_pieces ds : Forall good_driver ds -> pieces 79 [] (List.concat (map driver_line ds)) = map driver_line ds.
Proof.
  induction 1 as [|e ds (N & D & M & P & L) F IH]; [reflexivity|]. cbn [map List.concat].
  assert (E : driver_line e ++ List.concat (map driver_line ds) = (repeat " "%char (dr_pad e) ++ dr_digits e ++ " "%char :: dr_name e) ++ LF :: List.concat (map driver_line ds)).
  { unfold driver_line. repeat (rewrite <- !app_assoc; cbn [app]). reflexivity. }
  rewrite E, pieces_line.
  - cbn [rev app]. rewrite IH. f_equal. unfold driver_line. repeat (rewrite <- !app_assoc; cbn [app]). reflexivity.
  - rewrite !in_app_iff. intros [H|[H|[H|H]]].
    + apply repeat_spec in H. discriminate H.
    + apply D in H. unfold digit, LF in H. rewrite nat_ascii_embedding in H by lia. lia.
    + discriminate H.
    + apply P in H. unfold printable, LF in H. rewrite nat_ascii_embedding in H by lia. lia.
  - unfold driver_line in L. rewrite !app_length in *. cbn [length] in *. rewrite app_length in L. cbn [length] in L. lia.
  - lia.
Qed.
Lemma find_before m before ls : Forall good_line before -> find_line m false (map (fun l => l ++ [LF]) before ++ ls) = find_line m false ls.
Proof.
  induction 1 as [|l before (G & L & N) F IH]; [reflexivity|]. cbn [map app find_line negb].
  replace (match l ++ [LF] with c :: _ => Ascii.eqb c "B" | [] => false end) with false; [exact IH|].
  destruct l as [|c l]; [reflexivity|]. cbn [app]. symmetry. apply Ascii.eqb_neq. intros ->. exact (N l eq_refl).
Qed.
Lemma find_drivers m ds : Forall good_driver ds -> match find_line m true (map driver_line ds) with
  | Some f => exists n, listed m ds n /\ f = Ok (n ++ [LF]) /\ (forall c, In c n -> printable c) /\ length n <= 77 | None => forall n, ~ listed m ds n end.
Proof.
  induction 1 as [|e ds G F IH]; [intros n H; inversion H|]. cbn [map find_line negb]. rewrite line_driver by exact G.
  destruct (Z.eqb_spec (dr_major e) m) as [E|E].
  - exists (dr_name e). split; [constructor; exact E|]. split; [reflexivity|]. destruct G as (N & D & M & P & L). split; [exact P|].
    unfold driver_line in L. rewrite !app_length in L. cbn [length] in L. rewrite app_length in L. cbn [length] in L. lia.
  - destruct (find_line m true (map driver_line ds)) as [f|].
    + destruct IH as (n & L & R & P). exists n. split; [constructor; assumption|]. split; assumption.
    + intros n H. inversion H as [e' l E1|e' l n' E1 L]; subst; [contradiction|]. exact (IH n L).
Qed.
Lemma find_table m before ds : good_table before ds -> match find_line m false (pieces 79 [] (table before ds)) with
  | Some f => exists n, listed m ds n /\ f = Ok (n ++ [LF]) /\ (forall c, In c n -> printable c) /\ length n <= 77 | None => forall n, ~ listed m ds n end.
Proof.
  intros (FB & FD). unfold table. rewrite pieces_lines by exact FB. rewrite find_before by exact FB.
  assert (E : pieces 79 [] (B "Block devices:" ++ [LF] ++ List.concat (map driver_line ds)) = (B "Block devices:" ++ [LF]) :: map driver_line ds).
  { change ([LF] ++ List.concat (map driver_line ds)) with (LF :: List.concat (map driver_line ds)). rewrite pieces_line.
    - rewrite drivers_pieces by exact FD. reflexivity.
    - cbn. intros H. decompose [or] H; try discriminate; contradiction.
    - cbn. lia.
    - lia. }
  rewrite E. cbn [B list_ascii_of_string app find_line negb Ascii.eqb]. apply find_drivers. exact FD.
Qed.
Lemma listed_fun m ds n n' : listed m ds n -> listed m ds n' -> n = n'.
Proof. induction 1 as [e l E|e l n E L IH]; intros H; inversion H; subst; auto; contradiction. Qed.
Lemma printable_is c : printable c -> isprint c = true.
Proof. unfold printable, isprint, byteN. unfold nat_of_ascii. intros H. lia. Qed.
Lemma firstn_name n : (forall c, In c n -> printable c) -> firstn (span isprint (n ++ [LF])) (n ++ [LF]) = n.
Proof.
  intros P. rewrite span_all; [|intros c H; apply printable_is, P, H|reflexivity].
  rewrite firstn_app, Nat.sub_diag, firstn_all. cbn [firstn]. apply app_nil_r.
Qed.
Lemma canonical n : module_name n (canonicalize_module_name n).
Proof.
  unfold canonicalize_module_name. split; [apply map_length|]. intros i Hi.
  assert (E : nth i (map (fun c => if Ascii.eqb c "-" then "_"%char else c) n) LF = if Ascii.eqb (nth i n LF) "-" then "_"%char else nth i n LF).
  { rewrite <- (map_nth (fun c => if Ascii.eqb c "-" then "_"%char else c)). apply nth_indep. rewrite map_length. exact Hi. }
  rewrite E. split; intros H; [rewrite H; reflexivity|]. destruct (Ascii.eqb_spec (nth i n LF) "-"); [contradiction|reflexivity].
Qed.

Theorem lookup_lemma before ds d fuel size m n : good_table before ds -> listed m ds n -> n <> BLKEXT -> 78 <= size ->
  exists s, lookup_mod_name (S fuel) (table before ds) d size m = Ok (Some s) /\ module_name n s.
Proof.
  intros G L NB SZ. pose proof (find_table m before ds G) as F. cbn [lookup_mod_name].
  destruct (find_line m false (pieces 79 [] (table before ds))) as [f|]; [|exfalso; exact (F n L)].
  destruct F as (n' & L' & -> & P & Len). rewrite (listed_fun m ds n' n L' L) in *. cbn [obind]. rewrite firstn_name by exact P.
  destruct (list_eq_dec ascii_dec n BLKEXT) as [E|_]; [contradiction|]. cbn [obind].
  replace (size <=? length n) with false by (symmetry; apply Nat.leb_gt; lia). eexists. split; [reflexivity|]. apply canonical.
Qed.
Theorem lookup_missing before ds d fuel size m : good_table before ds -> (forall n, ~ listed m ds n) ->
  lookup_mod_name (S fuel) (table before ds) d size m = Ok None.
Proof.
  intros G L. pose proof (find_table m before ds G) as F. cbn [lookup_mod_name].
  destruct (find_line m false (pieces 79 [] (table before ds))) as [f|]; [|reflexivity].
  destruct F as (n' & L' & _). exfalso. exact (L n' L').
Qed.
Lemma lookup_blkext before ds d fuel size m : good_table before ds -> listed m ds BLKEXT -> exists o,
  lookup_mod_name (S fuel) (table before ds) d size m =
    (let! name := match dv_type d with
          | PARTITION => if dev_is_nvme d then Ok (Some NVME) else match dv_disk d with None => Ok None | Some s => match disk_major s with None => Ok None
             | Some m => let! o := lookup_mod_name fuel (table before ds) d size m in Ok (match o with None => None | Some n => if list_eq_dec ascii_dec n BLKEXT then Some n else None end) end end
          | DISK => Ok (if dev_is_nvme d then Some NVME else None) | UNKNOWN_TYPE => Ok None end in
    o name) /\ o = fun name => Ok (match name with None => None | Some name => if size <=? length name then None else Some (canonicalize_module_name name) end).
Proof.
  intros G L. pose proof (find_table m before ds G) as F. eexists. split; [|reflexivity]. cbn [lookup_mod_name].
  destruct (find_line m false (pieces 79 [] (table before ds))) as [f|]; [|exfalso; exact (F _ L)].
  destruct F as (n' & L' & -> & P & _). rewrite (listed_fun m ds n' BLKEXT L' L) in *. cbn [obind]. rewrite firstn_name by exact P.
  destruct (list_eq_dec ascii_dec BLKEXT BLKEXT) as [_|E]; [reflexivity|contradiction].
Qed.
Lemma nvme_is d : (exists t, dv_name d = NVME ++ t) -> dev_is_nvme d = true.
Proof. intros (t & E). unfold dev_is_nvme. rewrite E. change (firstn 4 (NVME ++ t)) with NVME. destruct (list_eq_dec ascii_dec NVME NVME); [reflexivity|contradiction]. Qed.
Lemma nvme_not d : (forall t, dv_name d <> NVME ++ t) -> dev_is_nvme d = false.
Proof.
  intros H. unfold dev_is_nvme. destruct (list_eq_dec ascii_dec (firstn 4 (dv_name d)) NVME) as [E|]; [|reflexivity].
  exfalso. apply (H (skipn 4 (dv_name d))). rewrite <- E. symmetry. apply firstn_skipn.
Qed.
Theorem lookup_nvme before ds d fuel size m : good_table before ds -> listed m ds BLKEXT -> (exists t, dv_name d = NVME ++ t) ->
  dv_type d <> UNKNOWN_TYPE -> 78 <= size -> lookup_mod_name (S fuel) (table before ds) d size m = Ok (Some NVME).
Proof.
  intros G L N T SZ. destruct (lookup_blkext before ds d fuel size m G L) as (o & -> & ->). apply nvme_is in N. rewrite N.
  destruct (dv_type d); [| |contradiction]; cbn [obind].
  all: replace (size <=? length NVME) with false by (symmetry; apply Nat.leb_gt; cbn; lia); reflexivity.
Qed.
Theorem lookup_blkext_none before ds d size m : good_table before ds -> listed m ds BLKEXT -> (forall t, dv_name d <> NVME ++ t) ->
  forall fuel, lookup_mod_name fuel (table before ds) d size m = Ok None \/ lookup_mod_name fuel (table before ds) d size m = UB.
Proof.
  intros G L N. apply nvme_not in N. intros fuel. destruct fuel as [|fuel]; [right; reflexivity|].
  destruct (lookup_blkext before ds d fuel size m G L) as (o & -> & ->). rewrite N.
  destruct (dv_type d); cbn [obind]; [left; reflexivity| |left; reflexivity].
  destruct (dv_disk d) as [s|]; [|left; reflexivity]. cbn [obind]. destruct (disk_major s) as [m'|]; [|left; reflexivity].
  assert (K : forall fuel m, lookup_mod_name fuel (table before ds) d size m <> Ok (Some BLKEXT)).
  { clear m m' L fuel. induction fuel as [|fuel IH]; intros m; [discriminate|].
    pose proof (find_table m before ds G) as F. cbn [lookup_mod_name].
    destruct (find_line m false (pieces 79 [] (table before ds))) as [f|]; [|discriminate].
    destruct F as (n' & L' & -> & P & _). cbn [obind]. rewrite firstn_name by exact P.
    assert (C : forall n, canonicalize_module_name n = BLKEXT -> n = BLKEXT).
    { intros n H. unfold canonicalize_module_name in H. do 7 (destruct n as [|? n]; try discriminate H).
      cbn [map] in H. unfold BLKEXT in *. cbn in H |- *. injection H as H1 H2 H3 H4 H5 H6.
      repeat match goal with H : (if Ascii.eqb ?c "-" then _ else ?c) = _ |- _ => destruct (Ascii.eqb_spec c "-"); [discriminate H|subst c] end. reflexivity. }
    destruct (list_eq_dec ascii_dec n' BLKEXT) as [E|NE].
    - rewrite N. destruct (dv_type d); cbn [obind]; try discriminate. destruct (dv_disk d) as [s'|]; [|discriminate]. destruct (disk_major s') as [m'|]; [|discriminate].
      destruct (lookup_mod_name fuel (table before ds) d size m') as [[n|]|] eqn:E'; cbn [obind]; try discriminate.
      destruct (list_eq_dec ascii_dec n BLKEXT) as [->|]; [exfalso; exact (IH m' E')|discriminate].
    - cbn [obind]. destruct (size <=? length n'); [discriminate|]. intros H. injection H as H. exact (NE (C n' H)). }
  destruct (lookup_mod_name fuel (table before ds) d size m') as [[n|]|] eqn:E'; cbn [obind]; [|left; reflexivity|right; reflexivity].
  destruct (list_eq_dec ascii_dec n BLKEXT) as [->|]; [exfalso; exact (K fuel m' E')|left; reflexivity].
Qed.

Lemma blkext_none_partition before ds d fuel size m s m' n : good_table before ds -> listed m ds BLKEXT -> (forall t, dv_name d <> NVME ++ t) ->
  dv_type d = PARTITION -> dv_disk d = Some s -> disk_major s = Some m' -> listed m' ds n -> n <> BLKEXT -> 78 <= size ->
  lookup_mod_name (S (S fuel)) (table before ds) d size m = Ok None.
Proof.
  intros G L N T D M L' NB SZ. destruct (lookup_blkext_none before ds d size m G L N (S (S fuel))) as [E|E]; [exact E|]. exfalso.
  destruct (lookup_blkext before ds d (S fuel) size m G L) as (o & E' & ->). rewrite E' in E.
  rewrite T, (nvme_not d N), D, M in E. destruct (lookup_lemma before ds d fuel size m' n G L' NB SZ) as (r & R & _). rewrite R in E. discriminate E.
Qed.
Lemma blkext_endless before ds d size m s m' : good_table before ds -> listed m ds BLKEXT -> (forall t, dv_name d <> NVME ++ t) ->
  dv_type d = PARTITION -> dv_disk d = Some s -> disk_major s = Some m' -> listed m' ds BLKEXT ->
  forall fuel, lookup_mod_name fuel (table before ds) d size m = UB.
Proof.
  intros G L N T D M L' fuel. revert m L. induction fuel as [|fuel IH]; intros m L; [reflexivity|].
  destruct (lookup_blkext before ds d fuel size m G L) as (o & -> & ->). rewrite T, (nvme_not d N), D, M, (IH m' L'). reflexivity.
Qed.
Lemma blkext_disk before ds d fuel size m : good_table before ds -> listed m ds BLKEXT -> (forall t, dv_name d <> NVME ++ t) ->
  dv_type d <> PARTITION -> lookup_mod_name (S fuel) (table before ds) d size m = Ok None.
Proof.
  intros G L N T. destruct (lookup_blkext before ds d fuel size m G L) as (o & -> & ->). rewrite (nvme_not d N).
  destruct (dv_type d); [reflexivity|contradiction|reflexivity].
Qed.
Lemma lookup_fits fuel file d size m s : lookup_mod_name fuel file d size m = Ok (Some s) -> length s < size.
Proof.
  destruct fuel as [|fuel]; [discriminate|]. cbn [lookup_mod_name]. destruct (find_line m false (pieces 79 [] file)) as [f|]; [|discriminate].
  destruct f as [found|]; [|discriminate]. cbn [obind].
  match goal with |- obind ?x _ = _ -> _ => destruct x as [[n|]|]; cbn [obind]; try discriminate end.
  destruct (Nat.leb_spec size (length n)); [discriminate|]. intros H'. injection H' as <-. unfold canonicalize_module_name. rewrite map_length. lia.
Qed.
Lemma lookup_long before ds d fuel size m n : good_table before ds -> listed m ds n -> n <> BLKEXT ->
  size <= length n -> lookup_mod_name (S fuel) (table before ds) d size m = Ok None.
Proof.
  intros G L NB SZ. pose proof (find_table m before ds G) as F. cbn [lookup_mod_name].
  destruct (find_line m false (pieces 79 [] (table before ds))) as [f|]; [|reflexivity].
  destruct F as (n' & L' & -> & P & Len). rewrite (listed_fun m ds n' n L' L) in *. cbn [obind]. rewrite firstn_name by exact P.
  destruct (list_eq_dec ascii_dec n BLKEXT) as [E|_]; [contradiction|]. cbn [obind].
  replace (size <=? length n) with true by (symmetry; apply Nat.leb_le; lia). reflexivity.
Qed.
Lemma pieces_long file n cur : 1 <= n -> length cur + n <= 79 -> Forall (fun l => length l <= 79) (pieces n cur file) /\ List.concat (pieces n cur file) = rev cur ++ file.
Proof.
  revert n cur. induction file as [|c t IH]; intros n cur H1 H2; cbn [pieces].
  - destruct cur as [|x cur]; [split; [constructor|reflexivity]|]. split.
    + constructor; [|constructor]. rewrite rev_length. lia.
    + cbn [List.concat]. reflexivity.
  - destruct (Ascii.eqb c (ascii_of_nat 10) || (n <=? 1)) eqn:E.
    + destruct (IH 79 []) as [F C]; [lia|cbn; lia|]. split.
      * constructor; [rewrite rev_length; cbn; lia|exact F].
      * cbn [List.concat]. rewrite C. cbn [rev app]. rewrite <- app_assoc. reflexivity.
    + apply orb_false_iff in E as [_ E]. apply Nat.leb_gt in E. destruct (IH (n - 1) (c :: cur)) as [F C]; [lia|cbn; lia|].
      split; [exact F|]. rewrite C. cbn [rev]. rewrite <- app_assoc. reflexivity.
Qed.
Lemma kv_key s : length (canonicalize_kv_key s) = length s /\ ~ In ":"%char (canonicalize_kv_key s)
  /\ (~ In ":"%char s -> canonicalize_kv_key s = s).
Proof.
  unfold canonicalize_kv_key. split; [apply map_length|]. split.
  - intros H. apply in_map_iff in H as (c & E & _). destruct (Ascii.eqb_spec c ":"); [discriminate E|contradiction].
  - induction s as [|c s IH]; [reflexivity|]. intros N. cbn [map]. rewrite IH by (intros H; apply N; right; exact H).
    destruct (Ascii.eqb_spec c ":") as [->|]; [exfalso; apply N; left; reflexivity|reflexivity].
Qed.
