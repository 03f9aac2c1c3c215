(* Sizes of values as told by an iterator: proofs. *)
From Verif Require Import Base KvsValue_Model KvsValue_Spec KvsValue_Proofs KvsIter_Model KvsIter_Spec.
Local Open Scope nat_scope.

Lemma total_places q l : forall p, total (places q p l) = total l.
Proof. induction l as [|[x n] l IH]; intros p; cbn; auto. unfold total in *. cbn. rewrite IH. reflexivity. Qed.
Lemma skipn_last {A} (m : list A) x : skipn (length m) (m ++ [x]) = [x].
Proof. rewrite skipn_app, skipn_all, Nat.sub_diag. reflexivity. Qed.
Lemma nth_skipn {A} (m : list A) : forall n i, nth_error (skipn n m) i = nth_error m (n + i).
Proof. induction m as [|x m IH]; intros [|n] i; cbn; auto. destruct i; reflexivity. Qed.

Lemma sizes_lemma m src ref auto merge ds : supplied m src = Ok ds -> (ref && auto = true -> malloced m src) ->
  exists m' v sz i di e de, create_value m src ref auto merge = Ok (m', v, sz) /\ current_size m' v = Ok (i, di, e, de) /\
    i = all_bytes (skipn (length m) m') /\ sz = block_bytes (block m' v) /\ di + de = length (List.concat ds) /\
    de = (if ref && negb (is_vector src && merge) then length (List.concat ds) else 0) /\
    e = de + (if ref then 16 * count src else 0).
Proof.
  intros S M. destruct src as [b cnt|p len]; cbn [create_value supplied is_vector count] in *.
  - destruct (items_at m b cnt) as [l|] eqn:EI; cbn [obind] in *; [|discriminate].
    destruct (items_at_app m None b cnt l EI) as (_ & Lb & _ & Ll). pose proof (total_len _ _ _ S) as T. pose proof (read_items_lens _ _ _ S) as LE.
    destruct ref; cbn [andb negb] in *; [destruct merge; cbn [andb] in *|].
    + unfold items_at in EI. destruct (block m b) as [[|arr|]|] eqn:Eb; try discriminate. destruct (Nat.leb_spec cnt (length arr)); [|discriminate].
      injection EI as EI. assert (Ear : arr = l ++ skipn cnt arr) by (rewrite <- EI; symmetry; apply firstn_skipn).
      set (q := length m). set (m0 := m ++ [Some (Raw (zeros (total l)))]).
      assert (HH : handed_over m (Vector b cnt) = b :: bases l) by (cbn [handed_over]; unfold items_at; rewrite Eb; destruct (Nat.leb_spec cnt (length arr)); [rewrite EI; reflexivity|lia]).
      destruct (merge_ref_ok auto q b (skipn cnt arr) l m0 [] ds []) as (m1 & E1 & L1 & Q1 & B1 & O1).
      * apply block_last.
      * cbn [app]. unfold m0. rewrite block_app, Eb, <- Ear by exact Lb. reflexivity.
      * rewrite <- S. apply read_items_agree. intros x o n Hi Hn. destruct (read_exists _ _ _ _ _ _ S Hi Hn) as (y & Ey & _). apply block_app. eapply block_lt, Ey.
      * intros x o n Hi Hn. destruct (read_exists _ _ _ _ _ _ S Hi Hn) as (y & Ey & _). apply block_lt in Ey. unfold q. lia.
      * intros Au. destruct (M Au) as [ND OS]. rewrite HH in ND. unfold items_at in OS. rewrite Eb in OS. destruct (Nat.leb_spec cnt (length arr)); [|contradiction]. rewrite EI in OS.
        apply NoDup_cons_iff in ND as [N1 N2]. assert (OL : forall x, In x (bases l) -> x < length m).
        { intros x Hx. unfold bases in Hx. apply in_flat_map in Hx as ([[[y o]|] n] & Hi & Hy); [|contradiction]. destruct Hy as [->|[]]. rewrite Forall_forall in OS.
          destruct (OS _ Hi) as [_ Y]. destruct (block m x) eqn:Ex; [eapply block_lt, Ex|congruence]. }
        split.
        -- constructor; [intros [e|e]; [unfold q in e; lia|exact (N1 e)]|]. constructor; [intros e; apply OL in e; unfold q in e; lia|exact N2].
        -- eapply Forall_impl; [|exact OS]. intros [[[x o]|] n]; cbn [fst by_start]; [|auto]. intros [-> Y]. split; [reflexivity|]. unfold m0. rewrite block_app; [exact Y|].
           destruct (block m x) eqn:Ex; [eapply block_lt, Ex|congruence].
      * cbn [length app] in *. fold m0. rewrite E1. cbn [obind].
        assert (Lm0 : length m0 = length m + 1) by (unfold m0; rewrite app_length; reflexivity).
        assert (Lpl : length (places q 0 l) = cnt) by (rewrite places_len; exact Ll).
        do 7 eexists. split; [reflexivity|]. split; [|split; [|split; [|split; [|split]]]].
        -- unfold current_size. rewrite block_last. cbn [fvec fref fauto vsz vptr fint]. unfold items_at. rewrite block_app, B1 by lia.
           destruct (Nat.leb_spec cnt (length (places q 0 l ++ skipn cnt arr))); [|rewrite app_length in *; lia]. cbn [obind].
           rewrite firstn_app, Lpl, Nat.sub_diag, firstn_O, app_nil_r. rewrite firstn_all2 by lia. rewrite total_places. reflexivity.
        -- assert (Em1 : skipn (length m) m1 = [Some (Raw (List.concat ds))]).
           { assert (Ls : length (skipn (length m) m1) = 1) by (rewrite skipn_length; lia). destruct (skipn (length m) m1) as [|x [|? ?]] eqn:Es; try discriminate.
             f_equal. pose proof (nth_skipn m1 (length m) 0) as Hn. rewrite Es, Nat.add_0_r in Hn. cbn [nth_error] in Hn. unfold block in Q1. fold q in Hn. rewrite <- Hn in Q1. exact Q1. }
           rewrite skipn_app. fold q. fold q in Em1. rewrite Em1. replace (q - length m1) with 0 by (unfold q; lia). cbn [skipn app]. unfold all_bytes. cbn [map block_bytes list_sum fold_right fref]. rewrite T.
           generalize (length (List.concat ds)). intros. lia.
        -- rewrite block_last. reflexivity.
        -- rewrite Nat.add_0_r. exact T.
        -- reflexivity.
        -- lia.
    + do 7 eexists. split; [reflexivity|]. split; [|split; [|split; [|split; [|split]]]].
      * unfold current_size. rewrite block_last. cbn [fvec fref fauto vsz vptr fint]. rewrite (proj1 (items_at_app m _ b cnt l EI)). cbn [obind]. reflexivity.
      * rewrite skipn_last. reflexivity.
      * rewrite block_last. reflexivity.
      * exact T.
      * exact T.
      * lia.
    + destruct merge.
      * pose proof (copy_merge_ok m l [] ds _ S eq_refl) as C. cbn [app length] in C. rewrite C. cbn [obind].
        do 7 eexists. split; [reflexivity|]. split; [|split; [|split; [|split; [|split]]]].
        -- unfold current_size. rewrite block_last. cbn [fvec fref fauto vsz vptr fint obind]. reflexivity.
        -- rewrite skipn_last. unfold all_bytes. cbn [map block_bytes fref varr vraw length list_sum fold_right]. lia.
        -- rewrite block_last. cbn [block_bytes fref varr vraw length]. lia.
        -- rewrite Nat.add_0_r. exact T.
        -- reflexivity.
        -- reflexivity.
      * pose proof (copy_array_ok m (length m) (16 * cnt) l [] ds _ (16 * cnt) S eq_refl ltac:(cbn [length]; lia)) as C. cbn [app length] in C. rewrite C. cbn [obind].
        assert (Lpl : length (places (length m) (16 * cnt) l) = cnt) by (rewrite places_len; exact Ll).
        do 7 eexists. split; [reflexivity|]. split; [|split; [|split; [|split; [|split]]]].
        -- unfold current_size. rewrite block_last. cbn [fvec fref fauto vsz vptr fint varr]. destruct (Nat.leb_spec cnt (length (places (length m) (16 * cnt) l))); [|lia].
           cbn [obind]. rewrite firstn_all2 by lia. rewrite total_places. reflexivity.
        -- rewrite skipn_last. unfold all_bytes. cbn [map block_bytes fref varr vraw list_sum fold_right]. rewrite Lpl. lia.
        -- rewrite block_last. cbn [block_bytes fref varr vraw]. rewrite Lpl. lia.
        -- rewrite Nat.add_0_r. exact T.
        -- reflexivity.
        -- reflexivity.
  - destruct (mread m p len) as [d|] eqn:Em; cbn [obind] in *; [|discriminate]. injection S as <-. cbn [List.concat]. rewrite app_nil_r. pose proof (mread_len _ _ _ _ Em) as L.
    destruct ref; cbn [andb negb].
    + do 7 eexists. split; [reflexivity|]. split; [|split; [|split; [|split; [|split]]]].
      * unfold current_size. rewrite block_last. cbn [fvec fref fauto vsz vptr fint obind]. reflexivity.
      * rewrite skipn_last. reflexivity.
      * rewrite block_last. reflexivity.
      * lia.
      * lia.
      * lia.
    + assert (Es : splice (zeros len) 0 d = Ok d).
      { pose proof (splice_mid [] (zeros len) d len ltac:(lia) eq_refl) as X. cbn [app length] in X. rewrite X. replace (len - length d) with 0 by lia. cbn. rewrite app_nil_r. reflexivity. }
      rewrite Es. cbn [obind]. do 7 eexists. split; [reflexivity|]. split; [|split; [|split; [|split; [|split]]]].
      * unfold current_size. rewrite block_last. cbn [fvec fref fauto vsz vptr fint obind]. reflexivity.
      * rewrite skipn_last. unfold all_bytes. cbn [map block_bytes fref varr vraw length list_sum fold_right]. lia.
      * rewrite block_last. cbn [block_bytes fref varr vraw length]. lia.
      * lia.
      * reflexivity.
      * reflexivity.
Qed.
