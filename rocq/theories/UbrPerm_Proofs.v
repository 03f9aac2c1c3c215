From Verif Require Import Base Kvs_Model UbrKey_Model UbrKey_Spec UbrKey_Proofs UbrDb_Model UbrPerm_Spec.
Local Open Scope nat_scope.

Lemma key_eqb_spec a b : reflect (a = b) (key_eqb a b).
Proof. unfold key_eqb. destruct (list_eq_dec ascii_dec a b); constructor; assumption. Qed.
Lemma key_eqb_refl a : key_eqb a a = true. Proof. destruct (key_eqb_spec a a); congruence. Qed.

Lemma common_split a b : exists p x y, a = p ++ x /\ b = p ++ y /\ common a b = length p /\
  (match x, y with c :: _, c' :: _ => c <> c' | _, _ => True end).
Proof.
  revert b; induction a as [|c a IH]; intros b.
  - exists [], [], b. repeat split.
  - destruct b as [|c' b]; [exists [], (c :: a), []; repeat split|]. cbn [common]. destruct (Ascii.eqb_spec c c') as [<-|N].
    + destruct (IH b) as (p & x & y & -> & -> & L & D). exists (c :: p), x, y. cbn [app List.length]. repeat split; [congruence|exact D].
    + exists [], (c :: a), (c' :: b). repeat split. exact N.
Qed.
Lemma ch_app p x : ch (p ++ x) (length p) = ch x 0.
Proof. unfold ch. rewrite app_nth2 by lia. rewrite Nat.sub_diag. reflexivity. Qed.
Lemma ch0 x : no_nul x -> Ascii.eqb (ch x 0) NUL = match x with [] => true | _ => false end.
Proof. destruct x as [|c x]; [reflexivity|]. intros H. cbn. apply Ascii.eqb_neq. intros ->. apply H. left. reflexivity. Qed.
Lemma no_nul_app p x : no_nul (p ++ x) -> no_nul x.
Proof. intros H Hi. apply H, in_or_app. right. exact Hi. Qed.

Lemma match_stands o w : no_nul o -> no_nul w -> stands o w (mod_match o w).
Proof.
  intros Ho Hw. unfold mod_match. destruct (key_eqb_spec w OWNER_CORE) as [->|Nc]; [apply St_core|].
  destruct (common_split o w) as (p & x & y & -> & -> & L & D). rewrite L, !ch_app.
  apply no_nul_app in Ho, Hw. rewrite !ch0 by assumption.
  destruct y as [|cy y]; destruct x as [|cx x]; cbn [andb negb].
  - apply St_same. exact Nc.
  - rewrite andb_false_r. cbn [andb]. rewrite andb_true_r. rewrite app_nil_r in *.
    destruct (Nat.eqb_spec (length p) 0) as [Z|Z]; cbn [negb].
    + destruct p; [|discriminate]. cbn [app]. apply (St_none [] (cx :: x) []); [exact Nc|discriminate|discriminate|auto].
    + destruct (Nat.eqb_spec (length p) 1) as [E1|E1]; cbn [orb].
      * apply St_sup; [exact Nc|discriminate|auto].
      * unfold ch. cbn [nth]. destruct (Ascii.eqb_spec cx DELIM) as [->|Nd].
        -- apply St_sup; [exact Nc|discriminate|]. right. split; [intros ->; apply Z; reflexivity|reflexivity].
        -- rewrite <- (app_nil_r p) at 2. apply (St_none p (cx :: x) []); [rewrite app_nil_r; exact Nc| | |].
           ++ intros E. apply app_inv_head in E. discriminate.
           ++ discriminate.
           ++ right. split; [exact E1|]. intros E. injection E as ->. apply Nd. reflexivity.
  - rewrite app_nil_r in *. rewrite andb_true_r.
    assert (Hs : hd_error (@nil ascii) <> hd_error (cy :: y)) by discriminate.
    destruct (Nat.eqb_spec (length p) 0) as [Z|Z]; cbn [negb andb].
    + destruct p; [|discriminate]. cbn [app]. rewrite andb_false_l || idtac. apply (St_none [] [] (cy :: y)); [exact Nc|discriminate|discriminate|auto].
    + destruct (Nat.eqb_spec (length p) 1) as [E1|E1]; cbn [orb].
      * rewrite <- (app_nil_r p) at 1. apply St_sub; [exact Nc|discriminate|exact Hs|auto].
      * unfold ch. cbn [nth]. destruct (Ascii.eqb_spec cy DELIM) as [->|Nd].
        -- rewrite <- (app_nil_r p) at 1. apply St_sub; [exact Nc|discriminate|exact Hs|]. right. split; [intros ->; apply Z; reflexivity|reflexivity].
        -- rewrite <- (app_nil_r p) at 1. apply St_none; [exact Nc| |exact Hs|].
           ++ intros E. apply app_inv_head in E. discriminate.
           ++ right. split; [exact E1|]. intros E. injection E as ->. apply Nd. reflexivity.
  - assert (Hs : hd_error (cx :: x) <> hd_error (cy :: y)) by (cbn; congruence).
    destruct (Nat.eqb_spec (length p) 0) as [Z|Z]; cbn [negb andb].
    + destruct p; [|discriminate]. cbn [app]. apply (St_none [] (cx :: x) (cy :: y)); [exact Nc|cbn; congruence|exact Hs|auto].
    + destruct (Nat.eqb_spec (length p) 1) as [E1|E1]; cbn [orb].
      * apply St_sub; [exact Nc|discriminate|exact Hs|auto].
      * unfold ch. cbn [nth]. destruct (Ascii.eqb_spec cy DELIM) as [->|Nd].
        -- apply St_sub; [exact Nc|discriminate|exact Hs|]. right. split; [intros ->; apply Z; reflexivity|reflexivity].
        -- apply St_none; [exact Nc| |exact Hs|].
           ++ intros E. apply app_inv_head in E. congruence.
           ++ right. split; [exact E1|]. intros E. injection E as ->. apply Nd. reflexivity.
Qed.

(* the relation is a function *)
Lemma split_unique (p x y p' x' y' : bytes) : p ++ x = p' ++ x' -> p ++ y = p' ++ y' -> hd_error x <> hd_error y -> hd_error x' <> hd_error y' -> p = p'.
Proof.
  revert p'; induction p as [|c p IH]; intros [|c' p'] E1 E2 H1 H2; cbn [app] in *.
  - reflexivity.
  - subst x y. cbn in H1. congruence.
  - subst x' y'. cbn in H2. congruence.
  - injection E1 as -> E1. injection E2 as E2. f_equal. eapply IH; eassumption.
Qed.
Lemma stands_fun o w m m' : stands o w m -> stands o w m' -> m = m'.
Proof.
  assert (G : forall o w m, stands o w m -> (m = MOD_CORE_MATCH /\ w = B "/") \/ (w <> B "/" /\ ((m = MOD_MATCH /\ o = w) \/
     exists p x y, o = p ++ x /\ w = p ++ y /\ hd_error x <> hd_error y /\
       ((m = MOD_SUB_MATCH /\ y <> [] /\ (length p = 1 \/ (p <> [] /\ hd_error y = Some "/"%char)))
        \/ (m = MOD_SUP_MATCH /\ y = [] /\ (length p = 1 \/ (p <> [] /\ hd_error x = Some "/"%char)))
        \/ (m = MOD_NO_MATCH /\ (p = [] \/ (length p <> 1 /\ (if y then hd_error x <> Some "/"%char else hd_error y <> Some "/"%char)))))))).
  { clear. intros o w m H. destruct H as [o|o N|p x y N Y D C|p x N X C|p x y N E D C].
    - auto.
    - right. auto.
    - right. split; [exact N|]. right. exists p, x, y. repeat split; auto.
    - right. split; [exact N|]. right. exists p, x, []. rewrite app_nil_r. repeat split; auto.
      destruct x; [congruence|discriminate].
    - right. split; [exact N|]. right. exists p, x, y. repeat split; auto. }
  intros H H'. apply G in H, H'.
  destruct H as [(-> & Ew)|(Nw & H)], H' as [(-> & Ew')|(Nw' & H')]; try congruence.
  destruct H as [(-> & E)|(p & x & y & Eo & Ew & D & H)], H' as [(-> & E')|(p' & x' & y' & Eo' & Ew' & D' & H')]; [reflexivity| | |].
  - exfalso. apply D'. rewrite E, Ew' in Eo'. apply app_inv_head in Eo'. congruence.
  - exfalso. apply D. rewrite E', Ew in Eo. apply app_inv_head in Eo. congruence.
  - assert (p = p') by (apply (split_unique p x y p' x' y'); congruence). subst p'.
    assert (x = x') by (apply (app_inv_head p); congruence). assert (y = y') by (apply (app_inv_head p); congruence). subst x' y'.
    destruct H as [(-> & Y & C)|[(-> & Y & C)|(-> & C)]], H' as [(-> & Y' & C')|[(-> & Y' & C')|(-> & C')]]; try reflexivity; try congruence; exfalso.
    + destruct y; [congruence|]. destruct C as [C|(C & C1)], C' as [->|(C' & C2)]; try congruence; try discriminate.
    + subst y. destruct C as [C|(C & C1)], C' as [->|(C' & C2)]; try congruence; try discriminate.
    + destruct y; [congruence|]. destruct C' as [C'|(C' & C1)], C as [->|(C & C2)]; try congruence; try discriminate.
    + subst y. destruct C' as [C'|(C' & C1)], C as [->|(C & C2)]; try congruence; try discriminate.
Qed.
Lemma match_iff o w m : no_nul o -> no_nul w -> (mod_match o w = m <-> stands o w m).
Proof.
  intros Ho Hw. pose proof (match_stands o w Ho Hw) as H. split; [intros <-; exact H|]. intros H'. exact (stands_fun o w _ _ H H').
Qed.

Lemma below_sub a m : no_nul a -> no_nul m -> a <> [] -> below a m -> mod_match a m = MOD_SUB_MATCH.
Proof.
  intros Ha Hm N (x & X & ->). apply match_iff; [assumption..|].
  replace a with (a ++ []) at 1 by apply app_nil_r. apply St_sub; [|discriminate|discriminate|right; split; [exact N|reflexivity]].
  destruct a as [|c [|d a]]; [congruence| |discriminate]. destruct x; [congruence|]. discriminate.
Qed.
Lemma below_root m : no_nul m -> m <> [] -> mod_match (B "/") (B "/" ++ m) = MOD_SUB_MATCH.
Proof.
  intros Hm N. apply match_iff; [intros [H|[]]; discriminate H|intros [H|H]; [discriminate H|exact (Hm H)]|].
  apply (St_sub (B "/") [] m); [|exact N|destruct m; [congruence|discriminate]|left; reflexivity].
  destruct m; [congruence|discriminate].
Qed.
Lemma below_sup a m : no_nul a -> no_nul m -> a <> [] -> a <> B "/" -> below a m -> mod_match m a = MOD_SUP_MATCH.
Proof.
  intros Ha Hm N Nc (x & X & ->). apply match_iff; [assumption..|]. apply St_sup; [exact Nc|discriminate|right; split; [exact N|reflexivity]].
Qed.
Lemma same_lemma o w : no_nul o -> no_nul w -> (mod_match o w = MOD_MATCH <-> o = w /\ w <> B "/").
Proof.
  intros Ho Hw. rewrite match_iff by assumption. split.
  - intros H. remember MOD_MATCH as mm. destruct H; try discriminate. auto.
  - intros (-> & N). apply St_same, N.
Qed.
Lemma core_lemma o w : (mod_match o w = MOD_CORE_MATCH <-> w = B "/").
Proof.
  unfold mod_match. destruct (key_eqb_spec w OWNER_CORE) as [->|N].
  - split; reflexivity.
  - split; [|intros ->; exfalso; apply N; reflexivity].
    repeat match goal with |- context [if ?b then _ else _] => destruct b end; discriminate.
Qed.

(* modules of one registry *)
Lemma no_slash_split (a b p x y : bytes) : no_slash a -> no_slash b -> a = p ++ x -> b = p ++ y -> hd_error x <> Some "/"%char /\ hd_error y <> Some "/"%char.
Proof.
  intros Ha Hb -> ->. split.
  - intros H. destruct x; [discriminate|]. injection H as ->. apply Ha, in_or_app. right. left. reflexivity.
  - intros H. destruct y; [discriminate|]. injection H as ->. apply Hb, in_or_app. right. left. reflexivity.
Qed.
Lemma no_nul_full r n : no_nul r -> no_nul n -> no_nul (full_name r n).
Proof.
  intros Hr Hn H. unfold full_name in H. destruct H as [H|H]; [discriminate H|]. apply in_app_or in H as [H|[H|H]]; [exact (Hr H)|discriminate H|exact (Hn H)].
Qed.
Lemma one_registry r a b : no_nul r -> no_nul a -> no_nul b -> no_slash a -> no_slash b -> a <> b ->
  mod_match (full_name r a) (full_name r b) = MOD_NO_MATCH.
Proof.
  intros Hr Ha Hb Sa Sb N. apply match_iff; [apply no_nul_full; assumption..|].
  destruct (common_split a b) as (p & x & y & Ea & Eb & _ & D).
  replace (full_name r a) with ((DELIM :: r ++ DELIM :: p) ++ x) by (unfold full_name; rewrite Ea; cbn [app]; rewrite <- app_assoc; reflexivity).
  replace (full_name r b) with ((DELIM :: r ++ DELIM :: p) ++ y) by (unfold full_name; rewrite Eb; cbn [app]; rewrite <- app_assoc; reflexivity).
  destruct (no_slash_split a b p x y Sa Sb Ea Eb) as (Hx & Hy).
  apply St_none.
  - intros E. apply (f_equal (@List.length _)) in E. rewrite app_length in E. cbn [List.length B] in E. rewrite app_length in E. cbn in E. lia.
  - intros E. apply app_inv_head in E. subst. congruence.
  - destruct x, y; cbn; try discriminate; congruence.
  - right. split; [cbn [List.length]; rewrite app_length; cbn [List.length]; lia|]. destruct y; assumption.
Qed.
Lemma two_registries r s a b : no_nul r -> no_nul s -> no_nul a -> no_nul b -> r <> [] -> s <> [] -> hd_error r <> hd_error s ->
  mod_match (full_name r a) (full_name s b) = MOD_SUB_MATCH.
Proof.
  intros Hr Hs Ha Hb Nr Ns D. destruct s as [|c s]; [congruence|]. destruct r as [|e r]; [congruence|].
  apply match_iff; [apply no_nul_full; assumption..|].
  change (full_name (e :: r) a) with (B "/" ++ (e :: r ++ DELIM :: a)). change (full_name (c :: s) b) with (B "/" ++ (c :: s ++ DELIM :: b)).
  apply St_sub; [discriminate|discriminate|exact D|left; reflexivity].
Qed.

(* flags *)
Lemma has_bit f i : has f (2 ^ i) = N.testbit f i.
Proof.
  unfold has. destruct (N.eqb_spec (N.land f (2 ^ i)) 0) as [E|E]; cbn [negb].
  - apply (f_equal (fun x => N.testbit x i)) in E. rewrite N.land_spec, N.bits_0, N.pow2_bits_true, andb_true_r in E. congruence.
  - destruct (N.testbit f i) eqn:T; [reflexivity|]. exfalso. apply E. apply N.bits_inj. intros j. rewrite N.land_spec, N.bits_0.
    destruct (N.eq_dec i j) as [<-|Nij]; [rewrite T; reflexivity|]. rewrite N.pow2_bits_false by assumption. apply andb_false_r.
Qed.
Lemma has_RS f : has f FL_RS = N.testbit f 4. Proof. exact (has_bit f 4). Qed.
Lemma has_FRG_RD f : has f FL_FRG_RD = N.testbit f 5. Proof. exact (has_bit f 5). Qed.
Lemma has_SUB_RD f : has f FL_SUB_RD = N.testbit f 6. Proof. exact (has_bit f 6). Qed.
Lemma has_SUP_RD f : has f FL_SUP_RD = N.testbit f 7. Proof. exact (has_bit f 7). Qed.
Lemma has_FRG_WR f : has f FL_FRG_WR = N.testbit f 8. Proof. exact (has_bit f 8). Qed.
Lemma has_SUB_WR f : has f FL_SUB_WR = N.testbit f 9. Proof. exact (has_bit f 9). Qed.
Lemma has_SUP_WR f : has f FL_SUP_WR = N.testbit f 10. Proof. exact (has_bit f 10). Qed.
Lemma has_SYNC f : has f FL_SYNC = N.testbit f 1. Proof. exact (has_bit f 1). Qed.
Lemma has_AR f : has f FL_AR = N.testbit f 3. Proof. exact (has_bit f 3). Qed.

Lemma may_write_match r w : no_nul (r_owner r) -> no_nul w -> (may_write r w <-> granted r (write_bit (mod_match (r_owner r) w))).
Proof.
  intros Ho Hw. split.
  - intros H. apply H, match_stands; assumption.
  - intros H m Hm. apply match_iff in Hm; [|assumption..]. rewrite <- Hm. exact H.
Qed.
Lemma may_read_match r w : no_nul (r_owner r) -> no_nul w -> (may_read r w <-> granted r (read_bit (mod_match (r_owner r) w))).
Proof.
  intros Ho Hw. split.
  - intros H. apply H, match_stands; assumption.
  - intros H m Hm. apply match_iff in Hm; [|assumption..]. rewrite <- Hm. exact H.
Qed.

Lemma refuse_neg f rd : (refuse f rd < 0)%Z.
Proof. unfold refuse. destruct (has f FL_RS); [|destruct (has f rd)]; reflexivity. Qed.
Lemma wr_lemma o w : no_nul (r_owner o) -> no_nul w ->
  (may_write o w -> check_kv_wr_allowed (Some o) w = 1%Z) /\
  (~ may_write o w -> check_kv_wr_allowed (Some o) w =
     if N.testbit (r_flags o) 4 then (- EBUSY)%Z
     else match read_bit (mod_match (r_owner o) w) with
          | Some b => if N.testbit (r_flags o) b then (- EPERM)%Z else (- EACCES)%Z | None => 0%Z end).
Proof.
  intros Ho Hw. rewrite (may_write_match o w Ho Hw). unfold check_kv_wr_allowed, refuse, granted, write_bit, read_bit, flag.
  rewrite ?has_RS, ?has_FRG_WR, ?has_SUB_WR, ?has_SUP_WR, ?has_FRG_RD, ?has_SUB_RD, ?has_SUP_RD.
  destruct (mod_match (r_owner o) w); (split; intros H); try (rewrite H; reflexivity); try reflexivity; try tauto;
    match type of H with N.testbit _ ?b <> true => destruct (N.testbit (r_flags o) b); [congruence|reflexivity] end.
Qed.

Lemma some_inj A (x y : A) : Some x = Some y -> x = y. Proof. congruence. Qed.
(* keys *)
Lemma rec_key u w n c : canonicalize_key (skipn 1 (compose_key (set_spec (u_dev u) w (api_dom n) n c))) = record_key u w n c.
Proof.
  rewrite key_tail_lemma by reflexivity. rewrite canon_joined. unfold record_key, parts_of, joined.
  destruct n; cbn [ks_op ks_dom ks_ns ks_ns_part ks_id_cat ks_id ks_core set_spec str op_text ns_text api_dom get_ns_part ns_eqb DOM_USER B app];
    unfold Tok_Model.or_empty; reflexivity.
Qed.
Lemma arch_key u w n c : canonicalize_key (with_prefix C_ARCHIVE (compose_key (set_spec (u_dev u) w (api_dom n) n c))) = "~"%char :: record_key u w n c.
Proof.
  rewrite <- rec_key, key_tail_lemma by reflexivity. rewrite canon_joined, compose_joined. reflexivity.
Qed.
Lemma res_key n c : canonicalize_key (compose_key (reserve_spec (api_dom n) n c)) = reservation_key n c.
Proof.
  rewrite canon_compose. cbn [ks_extra reserve_spec]. unfold reservation_key, parts_of, joined. destruct n; reflexivity.
Qed.
Lemma name_bad c : name_ok c <-> bad_name c = false.
Proof.
  unfold name_ok, bad_name. destruct c as [|x c]; [split; [tauto|discriminate]|]. cbn [hd_error]. split.
  - intros (_ & C). apply Ascii.eqb_neq. intros ->. apply C. reflexivity.
  - intros C. split; [discriminate|]. intros E. injection E as ->. discriminate C.
Qed.

(* C49 *)
Lemma may_write_dec o w : no_nul (r_owner o) -> no_nul w -> {may_write o w} + {~ may_write o w}.
Proof.
  intros Ho Hw. pose proof (may_write_match o w Ho Hw) as M. unfold granted, flag in M.
  destruct (write_bit (mod_match (r_owner o) w)) as [b|]; [|left; tauto]. destruct (N.testbit (r_flags o) b); [left|right]; [tauto|].
  rewrite M. discriminate.
Qed.
Lemma not_write_read o w : no_nul (r_owner o) -> no_nul w -> ~ may_write o w ->
  exists b, read_bit (mod_match (r_owner o) w) = Some b /\ (may_read o w <-> N.testbit (r_flags o) b = true).
Proof.
  intros Ho Hw H. rewrite may_write_match in H by assumption. unfold granted, write_bit in H.
  pose proof (may_read_match o w Ho Hw) as R. unfold granted, read_bit, flag in R. unfold read_bit.
  destruct (mod_match (r_owner o) w); try tauto; eexists; (split; [reflexivity|exact R]).
Qed.
Lemma write_lemma d key new arch sync o k : canonicalize_key key = k -> recs d k = Some o -> no_nul (r_owner o) -> no_nul (r_owner new) ->
  (forall a, arch = Some a -> canonicalize_key a <> k) ->
  let '(d', code, stored) := kvs_set d key new arch (cb_write sync) in
  (may_write o (r_owner new) -> recs d' k = Some new /\ stored = Some new /\ (code >= 0)%Z
     /\ (forall a, arch = Some a -> recs d' (canonicalize_key a) = Some o)
     /\ (forall x, x <> k -> (forall a, arch = Some a -> x <> canonicalize_key a) -> recs d' x = recs d x)) /\
  (~ may_write o (r_owner new) -> d' = d /\ stored = None /\
     (is_reserved o -> code = (- EBUSY)%Z) /\ (~ is_reserved o -> may_read o (r_owner new) -> code = (- EPERM)%Z)
     /\ (~ is_reserved o -> ~ may_read o (r_owner new) -> code = (- EACCES)%Z)).
Proof.
  intros Ek Hr Ho Hw Ha. unfold kvs_set. rewrite Ek, Hr. unfold cb_write.
  destruct (wr_lemma o (r_owner new) Ho Hw) as (W1 & W2).
  destruct (may_write_dec o (r_owner new) Ho Hw) as [H|H].
  - rewrite (W1 H). change (1 <? 0)%Z with false. cbv iota. split; [intros _|tauto]. cbn [recs].
    split; [|split; [reflexivity|split]].
    + destruct arch as [a|]; unfold put.
      * destruct (key_eqb_spec k (canonicalize_key a)) as [E|_]; [exfalso; exact (Ha a eq_refl (eq_sym E))|]. rewrite key_eqb_refl. reflexivity.
      * rewrite key_eqb_refl. reflexivity.
    + unfold check_kv_index_needed, KV_INDEX_NOOP, KV_INDEX_REMOVE, KV_INDEX_ADD.
      repeat match goal with |- context [if ?b then _ else _] => destruct b end; lia.
    + split.
      * intros a ->. unfold put. rewrite key_eqb_refl. reflexivity.
      * intros x Nx Na. destruct arch as [a|]; unfold put.
        -- destruct (key_eqb_spec x (canonicalize_key a)) as [E|_]; [exfalso; exact (Na a eq_refl E)|].
           destruct (key_eqb_spec x k); [congruence|reflexivity].
        -- destruct (key_eqb_spec x k); [congruence|reflexivity].
  - destruct (not_write_read o (r_owner new) Ho Hw H) as (b & Eb & Rb). rewrite Eb in W2. specialize (W2 H).
    assert (Neg : (check_kv_wr_allowed (Some o) (r_owner new) <? 0)%Z = true).
    { rewrite W2. destruct (N.testbit (r_flags o) 4), (N.testbit (r_flags o) b); reflexivity. }
    rewrite Neg. split; [tauto|]. intros _. split; [reflexivity|]. split; [reflexivity|]. rewrite W2. unfold is_reserved, flag.
    destruct (N.testbit (r_flags o) 4); [split; [reflexivity|split; congruence]|]. split; [discriminate|].
    destruct (N.testbit (r_flags o) b); split; tauto || (intros _ X; rewrite Rb in X; congruence) || reflexivity.
Qed.

(* C50 *)
Definition new_rec (u : ucmd) (n : kv_ns) (w : bytes) (v : option bytes) (f : N) : rec :=
  Rec (u_seq u) (if ns_eqb n NS_UDEV then N.lor f 6 else f) (u_gen u) w (match v with Some v => [v] | None => [] end).
Lemma kv_set_unfold d u w n c v f : good_name n c ->
  kv_set d u w n c v f =
  let '(d', code, stored) := kvs_set d (skipn 1 (compose_key (set_spec (u_dev u) w (api_dom n) n c))) (new_rec u n w v f)
     (if has (r_flags (new_rec u n w v f)) FL_AR then Some (with_prefix C_ARCHIVE (compose_key (set_spec (u_dev u) w (api_dom n) n c))) else None)
     (cb_write false) in
  match v, stored with
  | Some _, None => UB
  | _, _ => Ok (manage_kv_index d' code (record_key u w n c), 0%Z, stored)
  end.
Proof.
  intros G. unfold kv_set. rewrite (proj1 (good_bad n c) G). unfold do_kv_set.
  replace ((if ns_eqb n NS_UDEV && key_eqb w OWNER_CORE then 0%Z else check_global_kv_rs_for_wr d w (api_dom n) n c) <? 0)%Z with false.
  - rewrite rec_key. reflexivity.
  - symmetry. apply Z.ltb_ge. destruct (ns_eqb n NS_UDEV && key_eqb w OWNER_CORE); [lia|]. unfold check_global_kv_rs_for_wr.
    destruct n; try lia; destruct (recs d _) as [o|]; try lia; destruct (has (r_flags o) FL_RS); cbn [negb]; try lia;
      destruct (mod_match (r_owner o) w); repeat match goal with |- context [if ?b then _ else _] => destruct b end; lia.
Qed.
Lemma arch_ne u w n c : "~"%char :: record_key u w n c <> record_key u w n c.
Proof. intros E. apply (f_equal (@List.length _)) in E. cbn [List.length] in E. lia. Qed.
Lemma index_recs d code k : recs (manage_kv_index d code k) = recs d.
Proof. unfold manage_kv_index. destruct (code =? KV_INDEX_ADD)%Z; [reflexivity|]. destruct (code =? KV_INDEX_REMOVE)%Z; reflexivity. Qed.

Lemma denied_lemma d u w n c v f o : good_name n c -> recs d (record_key u w n c) = Some o -> no_nul (r_owner o) -> no_nul w -> ~ may_write o w ->
  kv_set d u w n c v f = match v with Some _ => UB | None => Ok (d, 0%Z, None) end.
Proof.
  intros G Hr Ho Hw H. rewrite (kv_set_unfold d u w n c v f G).
  pose proof (write_lemma d (skipn 1 (compose_key (set_spec (u_dev u) w (api_dom n) n c))) (new_rec u n w v f)
     (if has (r_flags (new_rec u n w v f)) FL_AR then Some (with_prefix C_ARCHIVE (compose_key (set_spec (u_dev u) w (api_dom n) n c))) else None)
     false o (record_key u w n c) (rec_key u w n c) Hr Ho Hw) as W.
  destruct (kvs_set _ _ _ _ _) as ((d', code), stored).
  destruct W as (_ & W).
  - intros a Ha. destruct (has _ FL_AR); [|discriminate]. apply some_inj in Ha as <-. rewrite arch_key. apply arch_ne.
  - destruct (W H) as (-> & -> & C1 & C2 & C3). destruct v; [reflexivity|].
    assert (Cn : (code < 0)%Z).
    { destruct (N.testbit (r_flags o) 4) eqn:T; [rewrite (C1 T); reflexivity|].
      assert (NR : ~ is_reserved o) by (unfold is_reserved, flag; rewrite T; discriminate).
      destruct (not_write_read o w Ho Hw H) as (b & Eb & Rb). cbn [new_rec r_owner] in *.
      destruct (N.testbit (r_flags o) b) eqn:Tb; [rewrite (C2 NR (proj2 Rb eq_refl)); reflexivity|].
      rewrite C3; [reflexivity|exact NR|]. rewrite Rb. discriminate. }
    unfold manage_kv_index, KV_INDEX_ADD, KV_INDEX_REMOVE. rewrite !(proj2 (Z.eqb_neq _ _)) by lia. reflexivity.
Qed.
Lemma allowed_lemma d u w n c v f : good_name n c -> no_nul w ->
  (forall o, recs d (record_key u w n c) = Some o -> no_nul (r_owner o) /\ may_write o w) ->
  exists d', kv_set d u w n c v f = Ok (d', 0%Z, Some (new_rec u n w v f))
    /\ recs d' (record_key u w n c) = Some (new_rec u n w v f)
    /\ (forall o, recs d (record_key u w n c) = Some o -> N.testbit f 3 = true -> recs d' ("~"%char :: record_key u w n c) = Some o)
    /\ (forall x, x <> record_key u w n c -> (x = "~"%char :: record_key u w n c -> N.testbit f 3 = false \/ recs d (record_key u w n c) = None) -> recs d' x = recs d x).
Proof.
  intros G Hw H. rewrite (kv_set_unfold d u w n c v f G).
  assert (EA : has (r_flags (new_rec u n w v f)) FL_AR = N.testbit f 3).
  { rewrite has_AR. cbn [new_rec r_flags]. destruct (ns_eqb n NS_UDEV); [|reflexivity]. rewrite N.lor_spec.
    change (N.testbit 6 3) with false. apply orb_false_r. }
  rewrite EA. set (key := compose_key (set_spec (u_dev u) w (api_dom n) n c)).
  destruct (recs d (record_key u w n c)) as [o|] eqn:Hr.
  - destruct (H o eq_refl) as (Ho & M).
    pose proof (write_lemma d (skipn 1 key) (new_rec u n w v f) (if N.testbit f 3 then Some (with_prefix C_ARCHIVE key) else None)
      false o (record_key u w n c) (rec_key u w n c) Hr Ho Hw) as W.
    destruct (kvs_set _ _ _ _ _) as ((d', code), stored).
    destruct W as (W & _).
    + intros a Ha. destruct (N.testbit f 3); [|discriminate]. apply some_inj in Ha as <-. unfold key. rewrite arch_key. apply arch_ne.
    + destruct (W M) as (A & -> & _ & C & D). eexists. split; [destruct v; reflexivity|]. rewrite index_recs. split; [exact A|]. split.
      * intros o' Eo T. injection Eo as <-. rewrite T in C. rewrite <- (C _ eq_refl). unfold key. rewrite arch_key. reflexivity.
      * intros x Nx Na. apply D; [exact Nx|]. intros a Ea ->. destruct (N.testbit f 3); [|discriminate]. apply some_inj in Ea as <-.
        unfold key in Na. rewrite arch_key in Na. destruct (Na eq_refl); discriminate.
  - unfold kvs_set. rewrite (rec_key u w n c : canonicalize_key (skipn 1 key) = _). rewrite Hr.
    unfold cb_write. cbn [check_kv_wr_allowed]. change (0 <? 0)%Z with false. cbv iota.
    eexists. split; [destruct v; reflexivity|]. rewrite index_recs. cbn [recs].
    assert (Es : forall A (o : option A) (x : bytes -> option rec), match o with Some _ | _ => x end = x) by (intros A []; reflexivity).
    rewrite Es. unfold put.
    split; [rewrite key_eqb_refl; reflexivity|]. split; [discriminate|].
    intros x Nx _. destruct (key_eqb_spec x (record_key u w n c)); [congruence|reflexivity].
Qed.

(* C51 *)
Lemma global_check_lemma d w n c : no_nul w -> (forall o, recs d (reservation_key n c) = Some o -> no_nul (r_owner o)) ->
  (n = NS_UDEV \/ n = NS_DEVICE) ->
  (check_global_kv_rs_for_wr d w (api_dom n) n c = 0%Z <-> exists o, recs d (reservation_key n c) = Some o /\ is_reserved o /\ ~ may_write o w)
  /\ (check_global_kv_rs_for_wr d w (api_dom n) n c = 0%Z \/ check_global_kv_rs_for_wr d w (api_dom n) n c = 1%Z).
Proof.
  intros Hw Ho Hn. unfold check_global_kv_rs_for_wr. rewrite res_key.
  assert (G : forall z, (z = match recs d (reservation_key n c) with
      | Some o => if negb (has (r_flags o) FL_RS) then 1%Z else
          match mod_match (r_owner o) w with
          | MOD_NO_MATCH => if has (r_flags o) FL_FRG_WR then 1%Z else 0%Z
          | MOD_SUB_MATCH => if has (r_flags o) FL_SUB_WR then 1%Z else 0%Z
          | MOD_SUP_MATCH => if has (r_flags o) FL_SUP_WR then 1%Z else 0%Z
          | _ => 1%Z end
      | None => 1%Z end) -> (z = 0%Z <-> exists o, recs d (reservation_key n c) = Some o /\ is_reserved o /\ ~ may_write o w) /\ (z = 0%Z \/ z = 1%Z)).
  { intros z ->. destruct (recs d (reservation_key n c)) as [o|] eqn:E.
    - specialize (Ho o eq_refl). pose proof (may_write_match o w Ho Hw) as M. rewrite has_RS, has_FRG_WR, has_SUB_WR, has_SUP_WR.
      assert (X : (exists o', Some o = Some o' /\ is_reserved o' /\ ~ may_write o' w) <-> is_reserved o /\ ~ may_write o w).
      { split; [intros (o' & Eo & H); injection Eo as <-; exact H|intros H; exists o; auto]. }
      rewrite X, M. unfold is_reserved, flag, granted, write_bit. clear X M.
      destruct (N.testbit (r_flags o) 4); cbn [negb]; [|split; [split; [discriminate|intros (H & _); discriminate]|auto]].
      destruct (mod_match (r_owner o) w); unfold flag;
        try (split; [split; [discriminate|tauto]|auto]);
        match goal with |- context [N.testbit ?x ?b] => destruct (N.testbit x b) end; (split; [|auto]); split; (discriminate || tauto || (intros _; split; [reflexivity|discriminate]) || (intros (_ & X); exfalso; apply X; reflexivity)).
    - split; [split; [discriminate|intros (o & H & _); discriminate]|auto]. }
  destruct Hn as [-> | ->]; apply G; reflexivity.
Qed.
Lemma ignored_lemma d d' u w n c v f : good_name n c -> recs d (record_key u w n c) = None -> recs d' (record_key u w n c) = None -> no_nul w ->
  exists e e', kv_set d u w n c v f = Ok (e, 0%Z, Some (new_rec u n w v f)) /\ kv_set d' u w n c v f = Ok (e', 0%Z, Some (new_rec u n w v f))
    /\ recs e (record_key u w n c) = Some (new_rec u n w v f) /\ recs e' (record_key u w n c) = Some (new_rec u n w v f).
Proof.
  intros G H H' Hw.
  destruct (allowed_lemma d u w n c v f G Hw) as (e & E & R & _); [intros o Ho; congruence|].
  destruct (allowed_lemma d' u w n c v f G Hw) as (e' & E' & R' & _); [intros o Ho; congruence|]. exists e, e'. auto.
Qed.

Lemma testbit_RS f : N.testbit (N.lor f (N.lor FL_RS FL_SYNC_P)) 4 = true.
Proof. rewrite N.lor_spec. change (N.testbit (N.lor FL_RS FL_SYNC_P) 4) with true. apply orb_true_r. Qed.
Lemma testbit_other f i : In i [0; 8; 9; 10; 5; 6; 7]%N -> N.testbit (N.lor f (N.lor FL_RS FL_SYNC_P)) i = N.testbit f i.
Proof. intros H. rewrite N.lor_spec. repeat (destruct H as [<-|H]; [apply orb_false_r|]). destruct H. Qed.
Lemma has_ALIGN f : has f FL_ALIGN = N.testbit f 0. Proof. exact (has_bit f 0). Qed.
Lemma reserve_lemma d g w n c f wk : name_ok c -> N.testbit f 0 = false -> no_nul w ->
  (forall o, recs d (reservation_key n c) = Some o -> no_nul (r_owner o)) ->
  ((forall o, recs d (reservation_key n c) = Some o -> r_owner o = w \/ w = B "/") ->
     exists d', kv_reserve d g w n c f wk = Ok (d', 0%Z) /\ (forall x, x <> reservation_key n c -> recs d' x = recs d x) /\
       exists o, recs d' (reservation_key n c) = Some o /\ r_owner o = w /\ is_reserved o /\ (forall b, In b [8; 9; 10; 5; 6; 7]%N -> flag o b <-> N.testbit f b = true))
  /\ ((exists o, recs d (reservation_key n c) = Some o /\ r_owner o <> w /\ w <> B "/") -> kv_reserve d g w n c f wk = Ok (d, 0%Z)).
Proof.
  intros Hc Ha Hw Ho. unfold kv_reserve. rewrite (proj1 (name_bad c) Hc). unfold do_reserve. cbn [andb].
  rewrite has_ALIGN, testbit_other by (left; reflexivity). rewrite Ha. unfold kvs_set. rewrite res_key. unfold cb_reserve.
  assert (Acc : forall code, exists d', Ok (manage_kv_index (Db (put (recs d) (reservation_key n c) (Some (Rec 0 (N.lor f (N.lor FL_RS FL_SYNC_P)) g w []))) (indexed d)) code (reservation_key n c), 0%Z) = Ok (d', 0%Z)
     /\ (forall x, x <> reservation_key n c -> recs d' x = recs d x) /\
       exists o, recs d' (reservation_key n c) = Some o /\ r_owner o = w /\ is_reserved o /\ (forall b, In b [8; 9; 10; 5; 6; 7]%N -> flag o b <-> N.testbit f b = true)).
  { intros code. eexists. split; [reflexivity|]. rewrite index_recs. cbn [recs]. unfold put. rewrite key_eqb_refl. split.
    - intros x Nx. destruct (key_eqb_spec x (reservation_key n c)); [congruence|reflexivity].
    - eexists. split; [reflexivity|]. split; [reflexivity|]. split; [apply testbit_RS|]. intros b Hb. unfold flag. cbn [r_flags].
      rewrite testbit_other by (right; exact Hb). tauto. }
  destruct (recs d (reservation_key n c)) as [o|] eqn:E.
  - specialize (Ho o eq_refl). split.
    + intros H. specialize (H o eq_refl).
      assert (M : mod_match (r_owner o) w = MOD_MATCH \/ mod_match (r_owner o) w = MOD_CORE_MATCH).
      { destruct (list_eq_dec ascii_dec w (B "/")) as [->|N]; [right; apply core_lemma; reflexivity|]. left. apply same_lemma; [assumption..|].
        destruct H; [auto|congruence]. }
      destruct M as [-> | ->]; apply Acc.
    + intros (o' & Eo & N1 & N2). injection Eo as <-.
      assert (M1 : mod_match (r_owner o) w <> MOD_MATCH) by (intros X; apply same_lemma in X; [|assumption..]; destruct X; congruence).
      assert (M2 : mod_match (r_owner o) w <> MOD_CORE_MATCH) by (intros X; apply core_lemma in X; congruence).
      destruct (mod_match (r_owner o) w); try congruence; reflexivity.
  - split; [intros _; apply Acc|intros (o & H & _); discriminate].
Qed.
Lemma unreserve_lemma d g w n c : name_ok c -> no_nul w ->
  (forall o, recs d (reservation_key n c) = Some o -> no_nul (r_owner o)) ->
  ((forall o, recs d (reservation_key n c) = Some o -> r_owner o = w \/ w = B "/") ->
     exists d', kv_unreserve d g w n c false = Ok (d', 0%Z) /\ recs d' (reservation_key n c) = None /\ (forall x, x <> reservation_key n c -> recs d' x = recs d x))
  /\ ((exists o, recs d (reservation_key n c) = Some o /\ r_owner o <> w /\ w <> B "/") -> kv_unreserve d g w n c false = Ok (d, (-1)%Z)).
Proof.
  intros Hc Hw Ho. unfold kv_unreserve. rewrite (proj1 (name_bad c) Hc). unfold do_reserve. cbn [andb negb]. unfold kvs_unset. rewrite res_key.
  unfold cb_reserve. cbn [negb].
  assert (Acc : forall old new, (check_kv_index_needed true old new <? 0)%Z = false) by reflexivity.
  assert (P : exists d', Ok (Db (put (recs d) (reservation_key n c) None) (indexed d), 0%Z) = Ok (d', 0%Z) /\ recs d' (reservation_key n c) = None /\ (forall x, x <> reservation_key n c -> recs d' x = recs d x)).
  { eexists. split; [reflexivity|]. cbn [recs]. unfold put. rewrite key_eqb_refl. split; [reflexivity|].
    intros x Nx. destruct (key_eqb_spec x (reservation_key n c)); [congruence|reflexivity]. }
  destruct (recs d (reservation_key n c)) as [o|] eqn:E.
  - specialize (Ho o eq_refl). split.
    + intros H. specialize (H o eq_refl).
      assert (M : mod_match (r_owner o) w = MOD_MATCH \/ mod_match (r_owner o) w = MOD_CORE_MATCH).
      { destruct (list_eq_dec ascii_dec w (B "/")) as [->|N]; [right; apply core_lemma; reflexivity|]. left. apply same_lemma; [assumption..|].
        destruct H; [auto|congruence]. }
      destruct M as [-> | ->]; exact P.
    + intros (o' & Eo & N1 & N2). injection Eo as <-.
      assert (M1 : mod_match (r_owner o) w <> MOD_MATCH) by (intros X; apply same_lemma in X; [|assumption..]; destruct X; congruence).
      assert (M2 : mod_match (r_owner o) w <> MOD_CORE_MATCH) by (intros X; apply core_lemma in X; congruence).
      destruct (mod_match (r_owner o) w); try congruence; reflexivity.
  - split; [intros _; exact P|intros (o & H & _); discriminate].
Qed.

(* C81 *)
Lemma get_lemma d u w n c : good_name n c -> no_nul w ->
  (recs d (record_key u w n c) = None -> kv_get d u w n c 0 None None = (None, (- ENOENT)%Z))
  /\ (forall o, recs d (record_key u w n c) = Some o -> no_nul (r_owner o) ->
       (~ may_read o w -> kv_get d u w n c 0 None None = (None, (- EPERM)%Z))
       /\ (may_read o w -> r_data o <> [] -> kv_get d u w n c 0 None None = (Some (r_data o, r_flags o), 0%Z))
       /\ (may_read o w -> r_data o = [] -> kv_get d u w n c 0 None None = (None, 0%Z))).
Proof.
  intros G Hw. unfold kv_get. rewrite (proj1 (good_bad n c) G). unfold cmd_get_key_value.
  replace (canonicalize_key (compose_key (get_spec (u_dev u) w (api_dom n) n c 0 None None))) with (record_key u w n c).
  - split; [intros ->; reflexivity|]. intros o -> Ho. rewrite (may_read_match o w Ho Hw). unfold granted, read_bit, flag.
    rewrite has_FRG_RD, has_SUB_RD, has_SUP_RD.
    assert (D : (match r_data o with [] => None | l => Some (l, r_flags o) end, 0%Z) =
       (match r_data o with [] => None | _ :: _ => Some (r_data o, r_flags o) end, 0%Z)) by (destruct (r_data o); reflexivity).
    rewrite D.
    destruct (mod_match (r_owner o) w);
      try match goal with |- context [N.testbit ?x ?b] => destruct (N.testbit x b) end;
      (split; [intros; (tauto || congruence || reflexivity)|split; intros A X;
         [destruct (r_data o); (congruence || reflexivity || tauto)|first [exfalso; congruence | rewrite X; reflexivity | tauto]]]).
  - rewrite <- rec_key. destruct (get_same_lemma (u_dev u) w n c G) as (r & a & s & g & E & H). destruct (H 0) as (x & Ex & Ec).
    unfold kv_get_keys in Ex. rewrite (proj1 (good_bad n c) G) in Ex. apply some_inj in Ex.
    unfold kv_set_keys in E. rewrite (proj1 (good_bad n c) G) in E. apply some_inj in E.
    apply (f_equal (hd [])) in Ex. apply (f_equal (hd [])) in E. cbn [hd] in Ex, E. rewrite Ex, Ec. cbn [Nat.eqb]. rewrite <- E. reflexivity.
Qed.
Lemma aligned_lemma d g w n c f wk : name_ok c -> N.testbit f 0 = true -> kv_reserve d g w n c f wk = UB.
Proof.
  intros Hc Ha. unfold kv_reserve. rewrite (proj1 (name_bad c) Hc). unfold do_reserve. cbn [andb].
  rewrite has_ALIGN, testbit_other by (left; reflexivity). rewrite Ha. reflexivity.
Qed.
Lemma registries_lemma r s a b : no_nul r -> no_nul s -> no_nul a -> no_nul b -> r <> [] -> s <> [] -> hd_error r <> hd_error s ->
  mod_match (full_name r a) (full_name s b) = MOD_SUB_MATCH /\ mod_match (full_name s b) (full_name r a) = MOD_SUB_MATCH
  /\ ~ below (full_name r a) (full_name s b).
Proof.
  intros Hr Hs Ha Hb Nr Ns D. split; [apply two_registries; assumption|]. split; [apply two_registries; auto|].
  intros (x & _ & E). destruct r as [|e r]; [congruence|]. destruct s as [|c s]; [congruence|]. unfold full_name in E. cbn [app] in E.
  injection E as E _. cbn [hd_error] in D. congruence.
Qed.
