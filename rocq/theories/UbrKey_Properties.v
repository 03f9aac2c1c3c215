From Verif Require Import Base Kvs_Model UbrKey_Model UbrKey_Spec UbrKey_Proofs.
Local Open Scope nat_scope.

Definition k1 : key_spec := KeySpec None OP_PLUS (Some (B "ALS")) NS_MODULE (Some (B "/blk/dm")) (Some (B "name")) (Some (B "sda")) (Some (B "#G:MB")).
Definition ctx1 : devctx := DevCtx (Some (B "8_0")) (Some (B "0d1b")).
Definition ctx2 : devctx := DevCtx (Some (B "8_16")) (Some (B "77aa")).
Lemma k1_clean : clean k1.
Proof. repeat split; intros H; repeat (destruct H as [H|H]; [discriminate H|]); destruct H. Qed.
Lemma ctx1_clean : clean_ctx ctx1 (B "/blk/dm").
Proof. repeat split; intros H; repeat (destruct H as [H|H]; [discriminate H|]); destruct H. Qed.

(* C46 *)
Theorem key_text : forall k, compose_key k = (match ks_extra k with Some e => e | None => B " " end) ++ joined (parts_of k)
  /\ cat_prefix_and_key (compose_key_prefix k) (str (ks_core k)) = joined (parts_of k).
Proof. intros k. split; [exact (compose_joined k)|exact (prefix_joined k)]. Qed.
Print Assumptions key_text.
Example key_text_case : compose_key k1 = B " +:ALS:M:/blk/dm:name:sda:#G:MB" /\ compose_key_prefix k1 = B "+:ALS:M:/blk/dm:name:sda:".
Proof. split; reflexivity. Qed.

Theorem key_parts_back : forall k, clean k -> ks_extra k = None ->
  decompose_key (skipn 1 (compose_key k)) = (parts_of k, 6).
Proof. exact roundtrip_lemma. Qed.
Print Assumptions key_parts_back.
Example key_parts_back_case : clean k1 /\ decompose_key (skipn 1 (compose_key k1)) =
  ([B "+"; B "ALS"; B "M"; B "/blk/dm"; B "name"; B "sda"; B "#G:MB"], 6).
Proof. split; [exact k1_clean|reflexivity]. Qed.

Theorem key_unambiguous : forall a b x y, clean a -> clean b -> ks_extra a = None -> ks_extra b = None ->
  stored_as (compose_key a) x -> stored_as (compose_key b) y -> (x = y <-> same_parts a b).
Proof.
  intros a b x y Ha Hb Ea Eb Hx Hy. apply stored_canon in Hx, Hy. subst x y. exact (key_inj_lemma a b Ha Hb Ea Eb).
Qed.
Print Assumptions key_unambiguous.
Example key_unambiguous_case : stored_as (compose_key k1) (B "+:ALS:M:/blk/dm:name:sda:#G:MB").
Proof. apply stored_canon. reflexivity. Qed.

(* every string, composed here or not, is cut at its first six separators and nothing is lost *)
Theorem decompose_any : forall key, has_parts key (fst (decompose_key key))
  /\ snd (decompose_key key) = length (fst (decompose_key key)) - 1
  /\ (forall l, has_parts key l -> l = fst (decompose_key key)).
Proof.
  intros key. destruct (decompose_lemma key) as (A & C). split; [exact A|]. split; [exact C|].
  intros l H. symmetry. exact (decompose_unique key l H).
Qed.
Print Assumptions decompose_any.
Example decompose_any_case : decompose_key (B "a:b") = ([B "a"; B "b"], 1) /\ decompose_key (B "") = ([B ""], 0)
  /\ decompose_key (B "::::::x:y") = ([B ""; B ""; B ""; B ""; B ""; B ""; B "x:y"], 6).
Proof. repeat split. Qed.

Theorem key_part_found : forall key l i p, has_parts key l -> i < 7 ->
  (get_key_part key i = Some p <-> nth_error l i = Some p /\ (i = 6 \/ i < length l - 1)).
Proof. exact get_part_lemma. Qed.
Print Assumptions key_part_found.
Example key_part_found_case : get_key_part (B ":USR:G") 1 = Some (B "USR") /\ get_key_part (B ":USR:G") 2 = None
  /\ get_key_part (B "::G::::a:b") 6 = Some (B "a:b").
Proof. repeat split. Qed.
Theorem key_rest_found : forall key l i, has_parts key l -> i < 7 ->
  get_key_part_rest key i = if i <? length l then Some (joined (skipn i l)) else None.
Proof. exact get_rest_lemma. Qed.
Print Assumptions key_rest_found.
Example key_rest_found_case : get_key_part_rest (B ":USR:G") 2 = Some (B "G") /\ get_key_part_rest (B ":USR:G") 3 = None.
Proof. split; reflexivity. Qed.

Theorem key_op_ns_back : forall k, clean k -> ks_extra k = None ->
  get_op_from_key (skipn 1 (compose_key k)) = ks_op k /\ get_ns_from_key (skipn 1 (compose_key k)) = ks_ns k.
Proof. exact op_ns_lemma. Qed.
Print Assumptions key_op_ns_back.
Example key_op_ns_back_case : get_op_from_key (skipn 1 (compose_key k1)) = OP_PLUS /\ get_ns_from_key (skipn 1 (compose_key k1)) = NS_MODULE.
Proof. exact (key_op_ns_back k1 k1_clean eq_refl). Qed.

(* the keys picked from a list are those with the parts asked for, in order *)
Theorem key_filter : forall values filter, exists r, get_key_strv values filter = Ok r /\
  (exists keep, r = List.filter keep values /\ forall v l, In v values -> has_parts v l -> (keep v = true <-> accepts filter l)).
Proof. exact strv_lemma. Qed.
Print Assumptions key_filter.
Example key_filter_case : get_key_strv [B ":ALS:M:/:name:sda:"; B ":ALS:M:/:dseq:7:"; B ":GRP:M:/:name:sda:"; B ":ALS:M:/m:name:sda:"]
  (KeySpec None OP_SET (Some (B "ALS")) NS_MODULE None (Some (B "name")) None None) = Ok [B ":ALS:M:/:name:sda:"; B ":ALS:M:/m:name:sda:"].
Proof. reflexivity. Qed.

(* Names given by modules are not checked for the separator: two aliases share a record *)
Theorem alias_records_distinct_refuted : exists owner k a k' a' x, (k, a) <> (k', a')
  /\ alias_key_of owner k a = Some x /\ alias_key_of owner k' a' = Some x.
Proof. exists (B "/blk/dm"), (B "a:b"), (B "c"), (B "a"), (B "b:c"), (B " :ALS:M:/blk/dm:a:b:c:#GMB"). repeat split. discriminate. Qed.
Print Assumptions alias_records_distinct_refuted.

(* C47 *)
Theorem module_keys_not_system :
  forall y, system_key y -> forall keys x k,
    (exists d o n c, kv_set_keys d o n c = Some keys) \/ (exists d o n c a fm fd, kv_get_keys d o n c a fm fd = Some keys)
    \/ (exists n c, kv_reserve_keys n c = Some keys) \/ (exists dn c, part_disk_keys dn c = Some keys) ->
    In x keys -> stored_as x k -> ~ stored_as y k.
Proof.
  intros y Sy keys x k H Hx Kx Ky. apply stored_canon in Kx, Ky.
  refine (apart x y _ Sy (eq_trans Kx (eq_sym Ky))).
  destruct H as [(d & o & n & c & E)|[(d & o & n & c & a & fm & fd & E)|[(n & c & E)|(dn & c & E)]]].
  - exact (set_keys_variant d o n c keys x E Hx).
  - exact (get_keys_variant d o n c a fm fd keys x E Hx).
  - exact (reserve_keys_variant n c keys x E Hx).
  - exact (disk_keys_variant dn c keys x E Hx).
Qed.
Print Assumptions module_keys_not_system.
Example module_keys_not_system_case : system_key (B "::D:0d1b:::#RDY")
  /\ kv_set_keys ctx1 (B "/blk/dm") NS_DEVICE (B "x") =
     Some [B ":USR:D:0d1b:::x"; B "~:USR:D:0d1b:::x"; B ">:USR:D:0d1b:::x"; B " :USR:D::::x"]
  /\ kv_get_keys ctx1 (B "/blk/dm") NS_DEVICE (B "x") 1 None (Some (B "a:::#RDY")) = Some [B "~:USR:D:a:::#RDY:::x"].
Proof.
  split; [|split; reflexivity]. exists (set_spec ctx1 (B "/") None NS_DEVICE K_READY). split; [|right; left; reflexivity].
  apply Sys_dev. left. reflexivity.
Qed.
Theorem module_names_accepted : (forall d o n c, (exists l, kv_set_keys d o n c = Some l) <-> good_name n c)
  /\ (forall d o n c a fm fd, (exists l, kv_get_keys d o n c a fm fd = Some l) <-> good_name n c)
  /\ (forall n c, (exists l, kv_reserve_keys n c = Some l) <-> c <> [] /\ hd_error c <> Some "#"%char).
Proof. split; [exact accept_set_lemma|]. split; [exact accept_get_lemma|exact accept_reserve_lemma]. Qed.
Print Assumptions module_names_accepted.
Example module_names_accepted_case : good_name NS_GLOBAL (B "a#") /\ kv_set_keys ctx1 (B "/m") NS_GLOBAL (B "#a") = None.
Proof. split; [split; [discriminate|split; discriminate]|reflexivity]. Qed.

(* C80 *)
Theorem get_reads_what_set_wrote : forall d o n c, good_name n c -> exists r a s g, kv_set_keys d o n c = Some [r; a; s; g] /\
  (forall archive, exists x, kv_get_keys d o n c archive None None = Some [x] /\
     canonicalize_key x = canonicalize_key (if archive =? 1 then a else r)).
Proof. exact get_same_lemma. Qed.
Print Assumptions get_reads_what_set_wrote.
Example get_reads_what_set_wrote_case : good_name NS_DEVMOD (B "x")
  /\ kv_get_keys ctx1 (B "/m") NS_DEVMOD (B "x") 0 None None = Some [B " :USR:X:0d1b:M:/m:x"].
Proof. split; [split; [discriminate|split; discriminate]|reflexivity]. Qed.

Theorem records_distinct : forall d o n c d' o' n' c' r r' k, clean_ctx d o -> clean_ctx d' o' ->
  (exists l, kv_set_keys d o n c = Some (r :: l)) -> (exists l, kv_set_keys d' o' n' c' = Some (r' :: l)) ->
  stored_as r k -> (stored_as r' k <-> n = n' /\ scope d o n = scope d' o' n' /\ c = c').
Proof. exact set_distinct_lemma. Qed.
Print Assumptions records_distinct.
Example records_distinct_case : clean_ctx ctx1 (B "/blk/dm") /\ scope ctx1 (B "/m") NS_DEVICE <> scope ctx2 (B "/m") NS_DEVICE.
Proof. split; [exact ctx1_clean|discriminate]. Qed.

(* A get for another device or module, when the module is named in the device-and-module namespace *)
Theorem foreign_get_partial : forall d o n c archive fm fd, (n = NS_DEVMOD -> fm <> None) ->
  kv_get_keys d o n c archive fm fd =
  kv_get_keys (DevCtx (num_s d) (match fd with Some i => Some i | None => uid_s d end)) (match fm with Some m => m | None => o end) n c archive None None.
Proof. exact foreign_lemma. Qed.
Print Assumptions foreign_get_partial.
Example foreign_get_case : kv_get_keys ctx1 (B "/m") NS_DEVMOD (B "x") 0 (Some (B "/n")) (Some (B "77aa")) = Some [B " :USR:X:77aa:M:/n:x"].
Proof. reflexivity. Qed.
(* with the device alone the module is left out, and in the udev namespace the device is ignored *)
Theorem foreign_device_refuted :
  (exists d d' o c x r, kv_get_keys d o NS_DEVMOD c 0 None (uid_s d') = Some [x]
     /\ hd_error (str_list (kv_set_keys d' o NS_DEVMOD c)) = Some r /\ canonicalize_key x <> canonicalize_key r)
  /\ (exists d d' o c x r, kv_get_keys d o NS_UDEV c 0 None (uid_s d') = Some [x] /\ d <> d'
     /\ hd_error (str_list (kv_set_keys d o NS_UDEV c)) = Some r /\ canonicalize_key x = canonicalize_key r).
Proof.
  split.
  - exists ctx1, ctx2, (B "/m"), (B "x"), (B " :USR:X:77aa:M::x"), (B ":USR:X:77aa:M:/m:x"). split; [reflexivity|]. split; [reflexivity|discriminate].
  - exists ctx1, ctx2, (B "/m"), (B "x"), (B " ::U:8_0:::x"), (B "::U:8_0:::x"). split; [reflexivity|]. split; [discriminate|]. split; reflexivity.
Qed.
Print Assumptions foreign_device_refuted.
(* A partition asking for a record of its disk uses the device number where records use the device id *)
Theorem disk_record_refuted : forall d o c devno x r, clean_ctx d o -> no_colon devno -> str (uid_s d) <> devno ->
  part_disk_keys devno c = Some [x] -> (exists l, kv_set_keys d o NS_DEVICE c = Some (r :: l)) -> canonicalize_key x <> canonicalize_key r.
Proof. exact disk_lemma. Qed.
Print Assumptions disk_record_refuted.
Example disk_record_case : part_disk_keys (B "8_0") (B "x") = Some [B " :USR:D:8_0:::x"] /\ str (uid_s ctx1) <> B "8_0".
Proof. split; [reflexivity|discriminate]. Qed.
