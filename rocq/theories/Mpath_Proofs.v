From Verif Require Import Base Kvs_Model Tok_Model UtilStr_Model BaseUtil_Model BaseUtil_Spec BaseUtil_Proofs UbrKey_Model UbrKey_Spec UbrKey_Proofs UbrDb_Model UbrRec_Model UbrRec_Proofs UbrPerm_Spec UbrPerm_Proofs Lvm_Model Lvm_Spec Lvm_Proofs Mpath_Model Mpath_Spec.
Local Open Scope nat_scope.

Lemma mp_nul : no_nul MOD_MPATH. Proof. cbv. intuition discriminate. Qed.
Lemma good_var : good_name NS_UDEV U_DEV_PATH. Proof. split; [discriminate|split; discriminate]. Qed.
Lemma good_valid : good_name NS_DEVMOD X_VALID. Proof. split; [discriminate|split; discriminate]. Qed.
Lemma good_wwid_name : good_name NS_DEVMOD X_WWID. Proof. split; [discriminate|split; discriminate]. Qed.
Lemma var_is u : record_key u MOD_MPATH NS_UDEV U_DEV_PATH = path_var u. Proof. reflexivity. Qed.
Lemma valid_is u : record_key u MOD_MPATH NS_DEVMOD X_VALID = valid_key u. Proof. reflexivity. Qed.
Lemma wwid_is u : record_key u MOD_MPATH NS_DEVMOD X_WWID = wwid_key u. Proof. reflexivity. Qed.
Lemma valid_wwid u : valid_key u <> wwid_key u.
Proof. unfold valid_key, wwid_key, devmod_key. intros H. repeat (apply app_inv_head in H || (rewrite !app_assoc in H; apply app_inv_head in H)). discriminate. Qed.
Lemma var_valid u : path_var u <> valid_key u. Proof. discriminate. Qed.
Lemma var_wwid u : path_var u <> wwid_key u. Proof. discriminate. Qed.

Lemma put_ok d u n c v f k : good_name n c -> N.testbit f 3 = false -> record_key u MOD_MPATH n c = k -> writable d MOD_MPATH k -> (if ns_eqb n NS_UDEV then N.lor f 6 else f) = 230%N ->
  exists d', put_string d u n c v f = Ok d' /\ sets [(k, mp_record u v)] d d'.
Proof.
  intros G F <- W E6. destruct (allowed_lemma d u MOD_MPATH n c (Some (v ++ [NUL])) f G mp_nul W) as (d' & E & R1 & _ & R2).
  exists d'. unfold put_string, str_set. rewrite E. cbn [obind]. split; [reflexivity|]. intros k. cbn [find fst]. destruct (key_eqb_spec (record_key u MOD_MPATH n c) k) as [<-|N].
  - rewrite R1. unfold new_rec, mp_record. rewrite E6. reflexivity.
  - apply R2; [congruence|]. intros _. left. exact F.
Qed.
Lemma own_writable d k u v : recs d k = Some (mp_record u v) -> writable d MOD_MPATH k.
Proof.
  intros H o E. rewrite H in E. injection E as <-. split; [exact mp_nul|]. apply may_write_match; [exact mp_nul|exact mp_nul|].
  replace (mod_match (r_owner (mp_record u v)) MOD_MPATH) with MOD_MATCH by (vm_compute; reflexivity). exact I.
Qed.
Lemma sets_nil d : sets [] d d. Proof. intros k. reflexivity. Qed.
Lemma sets_writable l d d' k : sets l d d' -> writable d MOD_MPATH k -> ~ In k (map fst l) -> writable d' MOD_MPATH k.
Proof. intros S W N o. rewrite (S k), Lvm_Proofs.find_none by exact N. apply W. Qed.
(* What a scan stores for a final result *)
Definition digit_of (v : Z) : bytes := [ascii_of_N (48 + Z.to_N v)].
Definition stored (u : ucmd) (v : Z) (w : option bytes) : list (bytes * rec) :=
  (if (v =? -1)%Z then [] else [(path_var u, mp_record u (if (v =? 1)%Z then B "1" else B "0")); (valid_key u, mp_record u (digit_of v))])
  ++ match w with Some w => [(wwid_key u, mp_record u w)] | None => [] end.
Lemma store_lemma d u v w : In v [-1; 0; 1; 3]%Z -> may_set d u -> exists d', store_result d u v (Some w) = Ok (d', if (v =? -1)%Z then (-1)%Z else 0%Z) /\ sets (stored u v w) d d'.
Proof.
  intros Hv M. assert (W1 : writable d MOD_MPATH (path_var u)) by (apply M; cbn; auto). assert (W2 : writable d MOD_MPATH (valid_key u)) by (apply M; cbn; auto). assert (W3 : writable d MOD_MPATH (wwid_key u)) by (apply M; cbn; auto). clear M.
  unfold store_result, stored.
  assert (Wd : forall d, writable d MOD_MPATH (wwid_key u) -> exists d', (let! d := match w with Some w => put_string d u NS_DEVMOD X_WWID w FL_RD_SYNC_P | None => Ok d end in Ok (d, if negb (v =? IS_ERROR)%Z then 0%Z else (-1)%Z)) = Ok (d', if (v =? -1)%Z then (-1)%Z else 0%Z)
    /\ sets match w with Some w => [(wwid_key u, mp_record u w)] | None => [] end d d').
  { intros d0 W. change IS_ERROR with (-1)%Z. destruct w as [w|].
    - destruct (put_ok d0 u NS_DEVMOD X_WWID w FL_RD_SYNC_P _ good_wwid_name eq_refl (wwid_is u) W eq_refl) as (d' & E & S). exists d'. rewrite E. cbn [obind]. split; [destruct (v =? -1)%Z; reflexivity|exact S].
    - exists d0. cbn [obind]. split; [destruct (v =? -1)%Z; reflexivity|apply sets_nil]. }
  assert (Hne : (v =? -1)%Z = false -> exists d', (let! d := put_string d u NS_UDEV U_DEV_PATH (if (v =? 1)%Z then B "1" else B "0") FL_RD in let! d := put_string d u NS_DEVMOD X_VALID (digit_of v) FL_RD_SYNC_P in
     (let! d := match w with Some w => put_string d u NS_DEVMOD X_WWID w FL_RD_SYNC_P | None => Ok d end in Ok (d, if negb (v =? IS_ERROR)%Z then 0%Z else (-1)%Z))) = Ok (d', 0%Z)
     /\ sets ([(path_var u, mp_record u (if (v =? 1)%Z then B "1" else B "0")); (valid_key u, mp_record u (digit_of v))] ++ match w with Some w => [(wwid_key u, mp_record u w)] | None => [] end) d d').
  { intros Ev. destruct (put_ok d u NS_UDEV U_DEV_PATH (if (v =? 1)%Z then B "1" else B "0") FL_RD _ good_var eq_refl (var_is u) W1 eq_refl) as (d1 & E1 & S1).
    assert (W2' : writable d1 MOD_MPATH (valid_key u)) by (apply (sets_writable _ _ _ _ S1 W2); intros [X|[]]; exact (var_valid u X)).
    assert (W3' : writable d1 MOD_MPATH (wwid_key u)) by (apply (sets_writable _ _ _ _ S1 W3); intros [X|[]]; exact (var_wwid u X)).
    destruct (put_ok d1 u NS_DEVMOD X_VALID (digit_of v) FL_RD_SYNC_P _ good_valid eq_refl (valid_is u) W2' eq_refl) as (d2 & E2 & S2).
    assert (W3'' : writable d2 MOD_MPATH (wwid_key u)) by (apply (sets_writable _ _ _ _ S2 W3'); intros [X|[]]; exact (valid_wwid u X)).
    destruct (Wd d2 W3'') as (d3 & E3 & S3). exists d3. rewrite E1. cbn [obind]. rewrite E2. cbn [obind]. rewrite E3. split; [rewrite Ev; reflexivity|].
    cbn [app]. apply (sets_cons _ _ _ _ _ _ S1).
    - apply (sets_cons _ _ _ _ _ _ S2 S3). destruct w; cbn [map In fst]; [intros [X|[]]; exact (valid_wwid u (eq_sym X))|intros []].
    - destruct w; cbn [map In fst]; [intros [X|[X|[]]]; [exact (var_valid u (eq_sym X))|exact (var_wwid u (eq_sym X))]|intros [X|[]]; exact (var_valid u (eq_sym X))]. }
  cbn [In] in Hv. destruct Hv as [<-|[<-|[<-|[<-|[]]]]].
  - cbn [Z.eqb]. change (IS_ERROR) with (-1)%Z. change (-1 =? IS_VALID)%Z with false. change (-1 =? -1)%Z with true. cbn [negb obind app]. exact (Wd d W3).
  - destruct (Hne eq_refl) as (d' & E & S). exists d'. split; [|exact S]. exact E.
  - destruct (Hne eq_refl) as (d' & E & S). exists d'. split; [|exact S]. exact E.
  - destruct (Hne eq_refl) as (d' & E & S). exists d'. split; [|exact S]. exact E.
Qed.

(* The state kept for a disk *)
Fixpoint state (rs : list Z) : option Z :=
  match rs with
  | [] => None
  | r :: rs => if (r =? -1)%Z then state rs else Some (if (r =? 1)%Z then match state rs with None => 1%Z | Some v => if (v =? 1)%Z then 1%Z else 0%Z end else if (r =? 2)%Z then 1%Z else r)
  end.
Definition holds (d : db) (k : bytes) (st : option Z) : Prop :=
  match st with None => recs d k = None | Some v => exists u, recs d k = Some (mp_record u (digit_of v)) end.
Lemma state_range rs : Forall answer rs -> match state rs with None => True | Some v => In v [0; 1; 3]%Z end.
Proof.
  induction 1 as [|r rs A F IH]; [exact I|]. cbn [state]. unfold answer in A. cbn [In] in A. decompose [or] A; subst; try contradiction; cbn [Z.eqb Pos.eqb]; [exact IH|cbn; auto|destruct (state rs) as [v|]; [destruct (v =? 1)%Z|]; cbn; auto|cbn; auto|cbn; auto].
Qed.
Lemma state_none rs : state rs = None <-> Forall (fun r => r = -1)%Z rs.
Proof.
  induction rs as [|r rs IH]; [split; [constructor|reflexivity]|]. cbn [state]. destruct (Z.eqb_spec r (-1)) as [->|N].
  - rewrite IH. split; [constructor; auto|apply Forall_inv_tail].
  - split; [discriminate|]. intros F. apply Forall_inv in F. contradiction.
Qed.
Lemma claimed_err rs : claimed (-1 :: rs)%Z <-> claimed rs.
Proof.
  split.
  - intros (a & b & E & F & K). destruct a as [|x a].
    + destruct K as [(-> & I)|(b' & ->)]; [destruct I|]. discriminate.
    + injection E as <- ->. exists a, b. split; [reflexivity|]. split; [exact (Forall_inv_tail F)|]. destruct K as [(-> & I)|K]; [left|right; exact K]. destruct I as [I|I]; [discriminate|auto].
  - intros (a & b & -> & F & K). exists (-1 :: a)%Z, b. split; [reflexivity|]. split; [constructor; auto|]. destruct K as [(-> & I)|K]; [left; split; [reflexivity|right; exact I]|right; exact K].
Qed.
Lemma claimed_maybe rs : claimed (1 :: rs)%Z <-> Forall (fun r => r = -1)%Z rs \/ claimed rs.
Proof.
  split.
  - intros (a & b & E & F & K). destruct a as [|x a].
    + destruct K as [(-> & I)|(b' & ->)]; [destruct I|discriminate].
    + injection E as <- ->. apply Forall_inv_tail in F. destruct K as [(-> & I)|K].
      * destruct (in_dec Z.eq_dec 1%Z a) as [J|J].
        -- right. exists a, []. split; [reflexivity|]. split; [exact F|]. left. auto.
        -- left. rewrite app_nil_r. apply Forall_forall. intros x X. rewrite Forall_forall in F. destruct (F x X) as [-> | ->]; [contradiction|reflexivity].
      * right. exists a, b. auto.
  - intros [F|(a & b & -> & F & K)].
    + exists (1 :: rs)%Z, []. rewrite app_nil_r. split; [reflexivity|]. split; [constructor; [auto|]; eapply Forall_impl; [|exact F]; auto|]. left. cbn. auto.
    + exists (1 :: a)%Z, b. split; [reflexivity|]. split; [constructor; auto|]. destruct K as [(-> & I)|K]; [left; cbn; auto|right; exact K].
Qed.
Lemma claimed_no r rs : r <> 1%Z -> r <> (-1)%Z -> r <> 2%Z -> ~ claimed (r :: rs).
Proof.
  intros N1 N2 N3 (a & b & E & F & K). destruct a as [|x a].
  - cbn [app] in E. subst b. destruct K as [(X & _)|(b' & X)]; [discriminate|]. injection X as -> _. contradiction.
  - injection E as <- _. apply Forall_inv in F. destruct F; contradiction.
Qed.
Lemma claimed_yes rs : claimed (2 :: rs)%Z.
Proof. exists [], (2 :: rs)%Z. split; [reflexivity|]. split; [constructor|]. right. exists rs. reflexivity. Qed.
Lemma state_claimed rs : Forall answer rs -> state rs = Some 1%Z <-> claimed rs.
Proof.
  induction 1 as [|r rs A F IH].
  - split; [discriminate|]. intros (a & b & E & _ & K). symmetry in E. apply app_eq_nil in E as (-> & ->). destruct K as [(_ & [])|(b' & X)]; discriminate.
  - unfold answer in A. cbn [In] in A. cbn [state]. decompose [or] A; subst; try contradiction; cbn [Z.eqb Pos.eqb].
    + rewrite claimed_err. exact IH.
    + split; [discriminate|]. intros X. exfalso; refine (claimed_no _ _ _ _ _ X); discriminate.
    + rewrite claimed_maybe, <- state_none, <- IH. destruct (state rs) as [v|]; [|split; auto]. destruct (Z.eqb_spec v 1) as [->|N]; split; auto; [discriminate|]. intros [X|X]; [discriminate|]. injection X as ->. contradiction.
    + split; [intros _; apply claimed_yes|reflexivity].
    + split; [discriminate|]. intros X. exfalso; refine (claimed_no _ _ _ _ _ X); discriminate.
Qed.
(* the value read back *)
Lemma read_valid d u v : (exists u0, recs d (valid_key u) = Some (mp_record u0 (digit_of v))) -> In v [0; 1; 3]%Z -> str_get d u MOD_MPATH NS_DEVMOD X_VALID None = Ok (Some (digit_of v)).
Proof.
  intros (u0 & H) Hv. unfold str_get. destruct (get_lemma d u MOD_MPATH NS_DEVMOD X_VALID good_valid mp_nul) as (_ & X). destruct (X _ H) as (_ & Y & _); [exact mp_nul|]. rewrite Y.
  - cbn [fst r_data mp_record]. rewrite string_ok; [reflexivity|]. cbn [In] in Hv. decompose [or] Hv; subst; try contradiction; cbv; intuition discriminate.
  - apply may_read_match; [exact mp_nul|exact mp_nul|]. replace (mod_match (r_owner (mp_record u0 (digit_of v))) MOD_MPATH) with MOD_MATCH by (vm_compute; reflexivity). exact I.
  - discriminate.
Qed.
Lemma read_none d u : recs d (valid_key u) = None -> str_get d u MOD_MPATH NS_DEVMOD X_VALID None = Ok None.
Proof. intros H. unfold str_get. destruct (get_lemma d u MOD_MPATH NS_DEVMOD X_VALID good_valid mp_nul) as (X & _). rewrite (X H). reflexivity. Qed.
Definition result (st : option Z) (r : Z) : Z := if (r =? 1)%Z then match st with None => 1%Z | Some v => if (v =? 1)%Z then 1%Z else 0%Z end else if (r =? 2)%Z then 1%Z else r.
Lemma final_lemma d u st r : answer r -> holds d (valid_key u) st -> match st with None => True | Some v => In v [0; 1; 3]%Z end -> final_result d u r = Ok (result st r) /\ In (result st r) [-1; 0; 1; 3]%Z.
Proof.
  intros A H R. unfold answer in A. cbn [In] in A. unfold final_result, result. change IS_VALID with 1%Z. change IS_VALID_NO_CHECK with 2%Z. change IS_NOT_VALID with 0%Z.
  decompose [or] A; subst; try contradiction; cbn [Z.eqb Pos.eqb]; try (split; [reflexivity|cbn; auto 6]).
  destruct st as [v|].
  - rewrite (read_valid d u v H R). cbn [obind]. cbn [In] in R. decompose [or] R; subst; try contradiction; (split; [vm_compute; reflexivity|cbn; auto 6]).
  - rewrite (read_none d u H). split; [reflexivity|cbn; auto 6].
Qed.
Lemma one_scan d u st disk r w : answer r -> holds d (valid_key u) st -> match st with None => True | Some v => In v [0; 1; 3]%Z end -> may_set d u ->
  exists d', mpath_scan_next d u true 1 disk 0 r (Some w) = Ok (d', if (r =? -1)%Z then (-1)%Z else 0%Z) /\ sets (stored u (result st r) w) d d'.
Proof.
  intros A H R M. unfold mpath_scan_next. cbn [negb]. change (1 =? UDEV_DEVTYPE_PARTITION) with false. change (1 =? UDEV_DEVTYPE_UNKNOWN) with false. change (0 <? 0)%Z with false. cbv iota.
  destruct (final_lemma d u st r A H R) as (E & Rv). rewrite E. cbn [obind]. destruct (store_lemma d u (result st r) w Rv M) as (d' & E' & S). exists d'. split; [|exact S]. rewrite E'.
  unfold answer in A. cbn [In] in A. unfold result. decompose [or] A; subst; try contradiction; try reflexivity. destruct st as [v|]; [destruct (v =? 1)%Z|]; reflexivity.
Qed.
Lemma same_keys u u0 : u_dev u = u_dev u0 -> path_var u = path_var u0 /\ valid_key u = valid_key u0 /\ wwid_key u = wwid_key u0.
Proof. intros E. unfold path_var, valid_key, wwid_key, Lvm_Spec.number, uid. rewrite E. auto. Qed.
Lemma stored_keys u v w k : In k (map fst (stored u v w)) -> In k [path_var u; valid_key u; wwid_key u].
Proof. unfold stored. destruct (v =? -1)%Z, w; cbn [app map fst In]; tauto. Qed.
Lemma stored_may d d' u u0 v w : u_dev u0 = u_dev u -> sets (stored u v w) d d' -> may_set d u0 -> may_set d' u0.
Proof.
  intros E S M k I. pose proof (S k) as X. destruct (find _ (stored u v w)) as [(a, r)|] eqn:F.
  - apply find_some in F as (F & _). assert (O : exists x, r = mp_record u x).
    { unfold stored in F. apply in_app_or in F as [F|F]; [destruct (v =? -1)%Z; [destruct F|]; destruct F as [F|[F|[]]]; injection F as _ <-; eauto|]. destruct w; [|destruct F]. destruct F as [F|[]]. injection F as _ <-. eauto. }
    destruct O as (x & ->). exact (own_writable d' k u x X).
  - intros o Eo. apply (M k I). congruence.
Qed.
Lemma stored_valid u v w d d' : sets (stored u v w) d d' -> recs d' (valid_key u) = if (v =? -1)%Z then recs d (valid_key u) else Some (mp_record u (digit_of v)).
Proof.
  intros S. rewrite (S (valid_key u)). unfold stored. destruct (v =? -1)%Z.
  - cbn [app]. destruct w; [|reflexivity]. cbn [find fst]. destruct (key_eqb_spec (wwid_key u) (valid_key u)) as [X|_]; [elim (valid_wwid u (eq_sym X))|reflexivity].
  - cbn [app find fst]. destruct (key_eqb_spec (path_var u) (valid_key u)) as [X|_]; [elim (var_valid u X)|]. rewrite key_eqb_refl. reflexivity.
Qed.
Lemma stored_var u v w d d' : sets (stored u v w) d d' -> recs d' (path_var u) = if (v =? -1)%Z then recs d (path_var u) else Some (mp_record u (if (v =? 1)%Z then B "1" else B "0")).
Proof.
  intros S. rewrite (S (path_var u)). unfold stored. destruct (v =? -1)%Z.
  - cbn [app]. destruct w; [|reflexivity]. cbn [find fst]. destruct (key_eqb_spec (wwid_key u) (path_var u)) as [X|_]; [elim (var_wwid u (eq_sym X))|reflexivity].
  - cbn [app find fst]. rewrite key_eqb_refl. reflexivity.
Qed.
Lemma stored_wwid u v w d d' : sets (stored u v w) d d' -> recs d' (wwid_key u) = match w with Some w => Some (mp_record u w) | None => recs d (wwid_key u) end.
Proof.
  intros S. rewrite (S (wwid_key u)). unfold stored. destruct (v =? -1)%Z; cbn [app].
  - destruct w; [|reflexivity]. cbn [find fst]. rewrite key_eqb_refl. reflexivity.
  - cbn [find fst]. destruct (key_eqb_spec (path_var u) (wwid_key u)) as [X|_]; [elim (var_wwid u X)|]. destruct (key_eqb_spec (valid_key u) (wwid_key u)) as [X|_]; [elim (valid_wwid u X)|].
    destruct w; [|reflexivity]. cbn [find fst]. rewrite key_eqb_refl. reflexivity.
Qed.
Lemma history_lemma dev rs d : history dev rs d -> Forall answer rs /\ forall u, u_dev u = dev -> holds d (valid_key u) (state rs) /\ may_set d u.
Proof.
  induction 1 as [d H|rs d u disk r w d' code H IH Eu A Gw E|rs d d' H IH X].
  - split; [constructor|]. exact H.
  - destruct IH as (F & IH). destruct (IH u Eu) as (Hh & M). destruct (one_scan d u (state rs) disk r w A Hh (state_range rs F) M) as (d1 & E1 & S). rewrite E1 in E. injection E as <- _.
    split; [constructor; assumption|]. intros u0 E0. destruct (IH u0 E0) as (_ & M0). split; [|exact (stored_may d d1 u u0 _ w (eq_trans E0 (eq_sym Eu)) S M0)].
    destruct (same_keys u0 u (eq_trans E0 (eq_sym Eu))) as (_ & -> & _). cbn [state]. pose proof (stored_valid _ _ _ _ _ S) as V.
    destruct (Z.eqb_spec r (-1)) as [->|Nr].
    + change (result (state rs) (-1)) with (-1)%Z in V. cbn [Z.eqb Pos.eqb] in V. unfold holds in *. rewrite V. exact Hh.
    + fold (result (state rs) r). cbn [holds]. exists u. rewrite V. destruct (Z.eqb_spec (result (state rs) r) (-1)) as [Y|_]; [|reflexivity]. exfalso. revert Y. unfold result. destruct (r =? 1)%Z; [destruct (state rs) as [v|]; [destruct (v =? 1)%Z|]; discriminate|]. destruct (r =? 2)%Z; [discriminate|exact Nr].
  - destruct IH as (F & IH). split; [exact F|]. intros u Eu. destruct (X u Eu) as (V & M). split; [|exact M]. unfold holds in *. rewrite V. exact (proj1 (IH u Eu)).
Qed.
Lemma scan_lemma dev rs d u disk r w : history dev rs d -> u_dev u = dev -> answer r -> good_wwid w ->
  exists d', mpath_scan_next d u true 1 disk 0 r (Some w) = Ok (d', if Z.eq_dec r (-1) then (-1)%Z else 0%Z)
  /\ (r <> (-1)%Z -> (claimed (r :: rs) -> recs d' (path_var u) = Some (mp_record u (B "1"))) /\ (~ claimed (r :: rs) -> recs d' (path_var u) = Some (mp_record u (B "0"))))
  /\ (r = (-1)%Z -> recs d' (path_var u) = recs d (path_var u))
  /\ recs d' (wwid_key u) = match w with Some w => Some (mp_record u w) | None => recs d (wwid_key u) end
  /\ (forall x, ~ In x [path_var u; valid_key u; wwid_key u] -> recs d' x = recs d x).
Proof.
  intros H Eu A Gw. destruct (history_lemma dev rs d H) as (F & IH). destruct (IH u Eu) as (Hh & M). destruct (one_scan d u (state rs) disk r w A Hh (state_range rs F) M) as (d' & E & S). exists d'.
  split; [rewrite E; destruct (Z.eq_dec r (-1)) as [->|N]; [reflexivity|]; replace (r =? -1)%Z with false by lia; reflexivity|].
  pose proof (stored_var _ _ _ _ _ S) as V. pose proof (state_claimed (r :: rs) (Forall_cons _ A F)) as C. cbn [state] in C.
  split; [|split; [|split]].
  - intros Nr. replace (r =? -1)%Z with false in C by lia. fold (result (state rs) r) in C.
    assert (Y : (result (state rs) r =? -1)%Z = false). { unfold result. destruct (r =? 1)%Z; [destruct (state rs) as [v|]; [destruct (v =? 1)%Z|]; reflexivity|]. destruct (r =? 2)%Z; [reflexivity|]. lia. }
    rewrite Y in V. split; intros K.
    + apply C in K. injection K as K. rewrite K in V. exact V.
    + destruct (Z.eqb_spec (result (state rs) r) 1) as [Z1|Z1]; [|exact V]. elim K. apply C. rewrite Z1. reflexivity.
  - intros ->. change (result (state rs) (-1)) with (-1)%Z in V. exact V.
  - exact (stored_wwid _ _ _ _ _ S).
  - intros x N. rewrite (S x), Lvm_Proofs.find_none; [reflexivity|]. intros I. apply N, (stored_keys u (result (state rs) r) w x I).
Qed.
Lemma unset_lemma dev rs d u disk r : history dev rs d -> u_dev u = dev -> answer r -> mpath_scan_next d u true 1 disk 0 r None = UB.
Proof.
  intros H Eu A. destruct (history_lemma dev rs d H) as (F & IH). destruct (IH u Eu) as (Hh & M). destruct (one_scan d u (state rs) disk r None A Hh (state_range rs F) M) as (d' & E & _).
  revert E. unfold mpath_scan_next. cbn [negb]. change (1 =? UDEV_DEVTYPE_PARTITION) with false. change (1 =? UDEV_DEVTYPE_UNKNOWN) with false. change (0 <? 0)%Z with false. cbv iota.
  destruct (final_result d u r) as [v|]; [|reflexivity]. cbn [obind]. unfold store_result. intros _.
  repeat match goal with |- obind ?x _ = _ => destruct x; cbn [obind]; try reflexivity end.
Qed.
Lemma refused_lemma d u allowed type disk reload r w : allowed = false \/ type = 0 \/ (type <> 2 /\ (reload < 0)%Z) ->
  exists code, mpath_scan_next d u allowed type disk reload r w = Ok (d, code).
Proof.
  intros H. unfold mpath_scan_next. change UDEV_DEVTYPE_PARTITION with 2. change UDEV_DEVTYPE_UNKNOWN with 0. destruct allowed; [|eexists; reflexivity]. cbn [negb]. destruct H as [H|[->|(N & L)]]; [discriminate|eexists; reflexivity|].
  destruct (Nat.eqb_spec type 2); [contradiction|]. destruct (type =? 0); [eexists; reflexivity|]. replace (reload <? 0)%Z with true by lia. eexists. reflexivity.
Qed.
(* partitions *)
Lemma disk_key devno : Kvs_Model.canonicalize_key (compose_key (disk_spec devno X_VALID)) = disk_valid devno.
Proof. rewrite canon_compose. reflexivity. Qed.
Lemma part_none d u disk reload r w : (forall devno, disk = Some devno -> recs d (disk_valid devno) = None) -> mpath_scan_next d u true 2 disk reload r w = Ok (d, 0%Z).
Proof.
  intros H. change (mpath_scan_next d u true 2 disk reload r w) with (is_parent_multipathed d u disk). unfold is_parent_multipathed. destruct disk as [devno|]; [|reflexivity].
  unfold cmd_get_key_value. rewrite disk_key, (H devno eq_refl). reflexivity.
Qed.
Lemma disk_other devno u : ~ In (disk_valid devno) [path_var u; valid_key u; wwid_key u].
Proof. cbn [In]. intros H. decompose [or] H; try contradiction; discriminate. Qed.
Lemma part_lemma dev rs d u disk r w : history dev rs d -> u_dev u = dev -> answer r -> good_wwid w -> forall devno, recs d (disk_valid devno) = None ->
  exists d', mpath_scan_next d u true 1 disk 0 r (Some w) = Ok (d', if Z.eq_dec r (-1) then (-1)%Z else 0%Z) /\ recs d' (disk_valid devno) = None
  /\ forall u' reload r' w', mpath_scan_next d' u' true 2 (Some devno) reload r' w' = Ok (d', 0%Z).
Proof.
  intros H Eu A G devno N. destruct (scan_lemma dev rs d u disk r w H Eu A G) as (d' & E & _ & _ & _ & K). exists d'. split; [exact E|].
  assert (X : recs d' (disk_valid devno) = None) by (rewrite K; [exact N|apply disk_other]). split; [exact X|]. intros u' reload r' w'. apply part_none. intros x Y. injection Y as <-. exact X.
Qed.
Lemma part_follows d u devno reload r w o s : recs d (disk_valid devno) = Some o -> no_nul (r_owner o) -> may_read o (B "/block/dm_mpath") -> r_data o = [s ++ [NUL]] -> no_nul s -> writable d (B "/block/dm_mpath") (path_var u) ->
  (s = B "1" -> exists d', mpath_scan_next d u true 2 (Some devno) reload r w = Ok (d', 0%Z) /\ sets [(path_var u, mp_record u (B "1"))] d d')
  /\ (In s [[]; B "0"; B "3"] -> mpath_scan_next d u true 2 (Some devno) reload r w = Ok (d, 0%Z)).
Proof.
  intros H No R D Ns W. change (mpath_scan_next d u true 2 (Some devno) reload r w) with (is_parent_multipathed d u (Some devno)). unfold is_parent_multipathed, cmd_get_key_value. rewrite disk_key, H.
  apply may_read_match in R; [|exact No|exact mp_nul]. unfold granted, read_bit, flag in R. rewrite has_FRG_RD, has_SUB_RD, has_SUP_RD.
  assert (E : match mod_match (r_owner o) MOD_MPATH with MOD_NO_MATCH => N.testbit (r_flags o) 5 | MOD_MATCH | MOD_CORE_MATCH => true
     | MOD_SUB_MATCH => N.testbit (r_flags o) 6 | MOD_SUP_MATCH => N.testbit (r_flags o) 7 end = true).
  { revert R. change (B "/block/dm_mpath") with MOD_MPATH. destruct (mod_match (r_owner o) MOD_MPATH); auto. }
  rewrite E, D. cbn [fst]. rewrite string_ok by exact Ns. cbn [obind]. split.
  - intros ->. destruct (put_ok d u NS_UDEV U_DEV_PATH (B "1") FL_RD _ good_var eq_refl (var_is u) W eq_refl) as (d' & E' & S). exists d'. split; [|exact S].
    change (text_number (B "1")) with (Some 1%Z). change (1 =? IS_VALID)%Z with true. cbn [B list_ascii_of_string] in E' |- *. rewrite E'. reflexivity.
  - cbn [In]. intros I. decompose [or] I; subst; try contradiction; reflexivity.
Qed.
(* the kernel command line *)
Lemma no_equals : ~ In "="%char (B "nompath"). Proof. cbv. intuition discriminate. Qed.
Lemma allow_lemma line c1 c2 ws : line <> [] -> cmdline_words line ws -> (kernel_cmdline_allow line c1 c2 = true <-> ~ turned_off ws).
Proof.
  intros N W. unfold kernel_cmdline_allow. destruct (kernel_present_lemma line c1 (B "nompath") ws N no_equals W) as (b & E & H). rewrite E. destruct b.
  - split; [discriminate|]. intros X. elim X. destruct (proj1 H eq_refl) as (w & I & A). exists w. auto.
  - destruct (kernel_value_lemma line c2 (B "nompath") ws N no_equals W) as (_ & _ & K).
    assert (T : forall w, In w ws -> ~ is_arg (B "nompath") w) by (intros w I A; discriminate (proj2 H (ex_intro _ w (conj I A)))).
    rewrite (K T). cbn [negb]. split; [|reflexivity]. intros _ (w & I & A). exact (T w I A).
Qed.
Lemma reads_lemma ev c2 file : file <> [] -> ~ In NUL file -> (forall e, ~ In (Failed e) ev) -> kernel_cmdline_allow [] (inr (ev, file)) c2 = kernel_cmdline_allow (firstn 4096 file) (inr (ev, file)) c2.
Proof. intros N Z F. unfold kernel_cmdline_allow. rewrite (kernel_reads_lemma ev file (B "nompath") false N Z F). reflexivity. Qed.
(* reservation *)
Lemma name_path : name_ok U_DEV_PATH. Proof. split; discriminate. Qed.
Lemma init_lemma d gen : (forall o, recs d (reservation_key NS_UDEV (B "DM_MULTIPATH_DEVICE_PATH")) = Some o -> r_owner o = B "/block/dm_mpath") ->
  exists d', mpath_init d gen 0 = Ok (d', true, 0%Z) /\ held d' /\ (forall x, x <> reservation_key NS_UDEV (B "DM_MULTIPATH_DEVICE_PATH") -> recs d' x = recs d x).
Proof.
  intros H. destruct (reserve_lemma d gen MOD_MPATH NS_UDEV U_DEV_PATH FL_FRG_RD false name_path eq_refl mp_nul) as (X & _); [intros o E; rewrite (H o E); exact mp_nul|].
  destruct X as (d' & E & K & o & Ho & Oo & Rs & Fl); [intros o E; left; exact (H o E)|]. exists d'. split; [unfold mpath_init; cbn [negb Z.eqb]; rewrite E; reflexivity|]. split; [|exact K].
  exists o. split; [exact Ho|]. split; [exact Oo|]. split; [exact Rs|].
  split; [apply Fl; [cbn; auto 10|reflexivity]|]. split; [|split]; intros Q; apply Fl in Q; try discriminate Q; cbn; auto 10.
Qed.
Lemma exit_lemma d gen gen' : recs d (reservation_key NS_UDEV (B "DM_MULTIPATH_DEVICE_PATH")) = None ->
  exists d1 d2, mpath_init d gen 0 = Ok (d1, true, 0%Z) /\ mpath_exit d1 gen' = Ok (d2, false, 0%Z) /\ forall x, recs d2 x = recs d x.
Proof.
  intros N. destruct (init_lemma d gen) as (d1 & E1 & (o & Ho & Oo & _) & K1); [intros o E; congruence|]. change (B "DM_MULTIPATH_DEVICE_PATH") with U_DEV_PATH in *.
  destruct (unreserve_lemma d1 gen' MOD_MPATH NS_UDEV U_DEV_PATH name_path mp_nul) as (X & _); [intros o' E; assert (o' = o) by congruence; subst o'; rewrite Oo; exact mp_nul|].
  destruct X as (d2 & E2 & N2 & K2); [intros o' E; left; assert (o' = o) by congruence; subst o'; exact Oo|].
  exists d1, d2. split; [exact E1|]. split; [unfold mpath_exit; rewrite E2; reflexivity|]. intros x. destruct (list_eq_dec ascii_dec x (reservation_key NS_UDEV U_DEV_PATH)) as [->|Nx]; [rewrite N2; symmetry; exact N|]. rewrite (K2 x Nx). exact (K1 x Nx).
Qed.
Lemma no_library d gen lib : lib <> 0%Z -> mpath_init d gen lib = Ok (d, false, (-1)%Z).
Proof. intros N. unfold mpath_init. replace (lib =? 0)%Z with false by lia. reflexivity. Qed.
