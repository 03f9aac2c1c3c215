From Verif Require Import Base UbrDb_Model UbrRec_Model UbrRec_Spec.
Local Open Scope nat_scope.
Local Notation concat := List.concat (only parsing).

Lemma le_length n x : length (le n x) = n.
Proof. revert x; induction n; intros x; cbn [le length]; auto. Qed.
Lemma unle_le n x : (x < 256 ^ N.of_nat n)%N -> unle (le n x) = x.
Proof.
  revert x; induction n as [|n IH]; intros x H.
  - change (256 ^ N.of_nat 0)%N with 1%N in H. cbn [le unle]. lia.
  - cbn [le unle]. rewrite IH.
    + unfold byteN. rewrite N_ascii_embedding by (apply N.mod_lt; lia).
      pose proof (N.div_mod' x 256). lia.
    + rewrite Nat2N.inj_succ, N.pow_succ_r' in H. apply N.div_lt_upper_bound; lia.
Qed.
Lemma unle8 x : (x < 2 ^ 64)%N -> unle (le 8 x) = x.
Proof. intros H. apply unle_le. exact H. Qed.
Lemma unle2 x : (x < 2 ^ 16)%N -> unle (le 2 x) = x.
Proof. intros H. apply unle_le. exact H. Qed.
Lemma unle4 x : (x < 2 ^ 32)%N -> unle (le 4 x) = x.
Proof. intros H. apply unle_le. exact H. Qed.

Lemma pad_spec p : (0 < p < 2 ^ 64)%N -> align_up_pad p 8 = ((8 - p mod 8) mod 8)%N.
Proof.
  intros H. unfold align_up_pad. change (8 - 1)%N with (N.ones 3). rewrite N.land_ones.
  change (2 ^ 3)%N with 8%N. unfold wrap64. change (2 ^ 64)%N with 18446744073709551616%N in *. lia.
Qed.

Lemma strlen_app a b : ~ In NUL a -> strlen (a ++ NUL :: b) = Some (length a).
Proof.
  induction a as [|c a IH]; intros H; [reflexivity|]. cbn [app strlen length].
  destruct (Ascii.eqb_spec c NUL) as [->|_]; [exfalso; apply H; left; reflexivity|].
  rewrite IH; [reflexivity|]. intros X; apply H; right; exact X.
Qed.
Lemma firstn_app_len {A} (a b : list A) n : length a = n -> firstn n (a ++ b) = a.
Proof. intros <-. rewrite firstn_app, Nat.sub_diag, firstn_all. cbn. apply app_nil_r. Qed.
Lemma skipn_app_len {A} (a b : list A) n : length a = n -> skipn n (a ++ b) = b.
Proof. intros <-. rewrite skipn_app, Nat.sub_diag, skipn_all. reflexivity. Qed.

Lemma number_le8 x : (x < 2 ^ 64)%N -> number_at 8 (le 8 x) = Ok x.
Proof. intros H. unfold number_at. rewrite le_length. cbn [Nat.leb]. rewrite firstn_all2 by (rewrite le_length; lia). rewrite unle8 by exact H. reflexivity. Qed.
Lemma number_le2 x : (x < 2 ^ 16)%N -> number_at 2 (le 2 x) = Ok x.
Proof. intros H. unfold number_at. rewrite le_length. cbn [Nat.leb]. rewrite firstn_all2 by (rewrite le_length; lia). rewrite unle2 by exact H. reflexivity. Qed.
Lemma string_ok a b : ~ In NUL a -> string_at (a ++ NUL :: b) = Ok a.
Proof. intros H. unfold string_at. rewrite strlen_app by exact H. rewrite firstn_app_len by reflexivity. reflexivity. Qed.

Definition pad_of (flags : N) (owner : bytes) : nat :=
  if has flags FL_ALIGN then N.to_nat ((8 - (18 + N.of_nat (length owner + 1)) mod 8) mod 8) else 0.
Definition head4 (seq flags gen : N) (owner : bytes) : list bytes := [le 8 seq; le 8 flags; le 2 gen; owner ++ [NUL]].
Definition padding_of (flags : N) (owner : bytes) : list bytes :=
  if has flags FL_ALIGN then [repeat NUL (pad_of flags owner)] else [].
Lemma header_lemma seq flags gen owner : good_header seq flags gen owner ->
  header_prep seq flags gen owner = Ok (head4 seq flags gen owner ++ padding_of flags owner).
Proof.
  intros (_ & _ & _ & _ & L). unfold header_prep, padding_of, pad_of, SVALUE_HEADER_SIZE, SVALUE_DATA_ALIGNMENT.
  destruct (has flags FL_ALIGN); [|rewrite app_nil_r; reflexivity].
  rewrite pad_spec by lia. destruct (N.leb_spec ((8 - (18 + N.of_nat (length owner + 1)) mod 8) mod 8) 8); [reflexivity|lia].
Qed.
Lemma readers seq flags gen owner rest : good_header seq flags gen owner ->
  let v := head4 seq flags gen owner ++ rest in
  vvalue_seqnum v = Ok seq /\ vvalue_flags v = Ok flags /\ vvalue_gennum v = Ok gen /\ vvalue_owner v = Ok owner.
Proof.
  intros (A & C & D & E & _) v. unfold v, vvalue_seqnum, vvalue_flags, vvalue_gennum, vvalue_owner, item, head4.
  cbn [app nth IDX_SEQNUM IDX_FLAGS IDX_GENNUM IDX_OWNER].
  rewrite !number_le8, number_le2, string_ok by assumption. tauto.
Qed.
Lemma data_reader seq flags gen owner data : good_header seq flags gen owner ->
  vvalue_data (head4 seq flags gen owner ++ padding_of flags owner ++ data) = Ok data.
Proof.
  intros G. unfold vvalue_data. destruct (readers _ _ _ _ (padding_of flags owner ++ data) G) as (_ & -> & _). cbn [obind].
  unfold padding_of. destruct (has flags FL_ALIGN); reflexivity.
Qed.

Definition scalar_of (seq flags gen : N) (owner rest : bytes) : bytes := le 8 seq ++ le 8 flags ++ le 2 gen ++ owner ++ NUL :: rest.
Lemma scalar_parts seq flags gen owner rest :
  let b := scalar_of seq flags gen owner rest in
  firstn 8 b = le 8 seq /\ firstn 8 (skipn 8 b) = le 8 flags /\ firstn 2 (skipn 16 b) = le 2 gen
  /\ skipn 18 b = owner ++ NUL :: rest /\ skipn (18 + (length owner + 1)) b = rest /\ length b = 18 + (length owner + 1) + length rest.
Proof.
  intros b. unfold b, scalar_of. split; [|split; [|split; [|split; [|split]]]].
  - apply firstn_app_len, le_length.
  - rewrite skipn_app_len by apply le_length. apply firstn_app_len, le_length.
  - rewrite app_assoc, skipn_app_len by (rewrite app_length, !le_length; reflexivity). apply firstn_app_len, le_length.
  - rewrite (app_assoc (le 8 seq)), app_assoc. apply skipn_app_len. rewrite !app_length, !le_length. reflexivity.
  - replace (NUL :: rest) with ([NUL] ++ rest) by reflexivity. rewrite !app_assoc. apply skipn_app_len.
    rewrite !app_length, !le_length. cbn [length]. lia.
  - rewrite !app_length, !le_length. cbn [length]. lia.
Qed.
Lemma padding_concat flags owner : concat (padding_of flags owner) = repeat NUL (pad_of flags owner).
Proof. unfold padding_of. destruct (has flags FL_ALIGN) eqn:E; cbn [concat]; [apply app_nil_r|]. unfold pad_of. rewrite E. reflexivity. Qed.
Lemma merged seq flags gen owner data :
  concat (head4 seq flags gen owner ++ padding_of flags owner ++ data)
  = scalar_of seq flags gen owner (repeat NUL (pad_of flags owner) ++ concat data).
Proof.
  rewrite !concat_app, padding_concat. unfold head4, scalar_of. cbn [concat]. rewrite <- !app_assoc. cbn [app]. reflexivity.
Qed.
Lemma scalar_split seq flags gen owner data : good_header seq flags gen owner ->
  get_vvalue (scalar_of seq flags gen owner (repeat NUL (pad_of flags owner) ++ data))
  = Ok (head4 seq flags gen owner ++ padding_of flags owner ++ [data]).
Proof.
  intros (A & C & D & E & L). unfold get_vvalue.
  destruct (scalar_parts seq flags gen owner (repeat NUL (pad_of flags owner) ++ data)) as (P1 & P2 & P3 & P4 & P5 & P6).
  cbv zeta in *. set (b := scalar_of _ _ _ _ _) in *.
  destruct (Nat.ltb_spec (length b) 18); [lia|]. rewrite P1, P2, P3, P4, unle8 by exact C.
  rewrite strlen_app by exact E. rewrite P5.
  replace (owner ++ NUL :: repeat NUL (pad_of flags owner) ++ data) with ((owner ++ [NUL]) ++ repeat NUL (pad_of flags owner) ++ data)
    by (rewrite <- app_assoc; reflexivity).
  rewrite (firstn_app_len (owner ++ [NUL])) by (rewrite app_length; reflexivity).
  unfold SVALUE_HEADER_SIZE, SVALUE_DATA_ALIGNMENT. rewrite pad_spec by lia.
  unfold padding_of, pad_of, head4. destruct (has flags FL_ALIGN).
  - set (n := N.to_nat _). destruct (Nat.ltb_spec (length (repeat NUL n ++ data)) n) as [H1|H1].
    { rewrite app_length, repeat_length in H1. lia. }
    rewrite firstn_app_len, skipn_app_len by apply repeat_length. reflexivity.
  - cbn [repeat app]. reflexivity.
Qed.
Lemma offset_lemma seq flags gen owner rest : good_header seq flags gen owner ->
  svalue_ext_data_offset (scalar_of seq flags gen owner rest) = Ok (N.of_nat (length owner + 1 + pad_of flags owner)).
Proof.
  intros (A & C & D & E & L). unfold svalue_ext_data_offset.
  destruct (scalar_parts seq flags gen owner rest) as (P1 & P2 & P3 & P4 & P5 & P6).
  cbv zeta in *. set (b := scalar_of _ _ _ _ _) in *. unfold number_at. rewrite P2, P4, unle8 by exact C.
  destruct (Nat.leb_spec 8 (length (skipn 8 b))) as [H|H]; [|rewrite skipn_length in H; lia]. cbn [obind].
  rewrite strlen_app by exact E. unfold SVALUE_HEADER_SIZE, SVALUE_DATA_ALIGNMENT. rewrite pad_spec by lia.
  unfold pad_of. destruct (has flags FL_ALIGN); f_equal; lia.
Qed.

Definition reads (v : list bytes) (seq flags gen : N) (owner : bytes) (data : list bytes) : Prop :=
  vvalue_seqnum v = Ok seq /\ vvalue_flags v = Ok flags /\ vvalue_gennum v = Ok gen /\ vvalue_owner v = Ok owner /\ vvalue_data v = Ok data.
Lemma record_lemma seq flags gen owner data : good_header seq flags gen owner ->
  exists h, header_prep seq flags gen owner = Ok h
    /\ reads (data_prep h data) seq flags gen owner data
    /\ exists v, vvalue_of (Scalar (concat (data_prep h data))) = Ok v /\ reads v seq flags gen owner [concat data].
Proof.
  intros G. exists (head4 seq flags gen owner ++ padding_of flags owner). split; [apply header_lemma, G|].
  unfold data_prep, reads. rewrite <- app_assoc. split.
  - destruct (readers _ _ _ _ (padding_of flags owner ++ data) G) as (A & C & D & E). pose proof (data_reader _ _ _ _ data G). tauto.
  - rewrite merged. cbn [vvalue_of]. rewrite scalar_split by exact G. eexists; split; [reflexivity|].
    destruct (readers _ _ _ _ (padding_of flags owner ++ [concat data]) G) as (A & C & D & E).
    pose proof (data_reader _ _ _ _ [concat data] G). tauto.
Qed.
Lemma offset_ok seq flags gen owner data h : good_header seq flags gen owner -> header_prep seq flags gen owner = Ok h ->
  exists off, svalue_ext_data_offset (concat (data_prep h data)) = Ok off
    /\ skipn (18 + N.to_nat off) (concat (data_prep h data)) = concat data
    /\ (has flags FL_ALIGN = true -> ((18 + off) mod 8 = 0)%N)
    /\ (N.of_nat (length owner) < off <= N.of_nat (length owner) + 8)%N.
Proof.
  intros G H. rewrite header_lemma in H by exact G. assert (E : head4 seq flags gen owner ++ padding_of flags owner = h) by congruence. subst h.
  unfold data_prep. rewrite <- app_assoc, merged. eexists; split; [apply offset_lemma, G|]. split; [|split].
  - destruct (scalar_parts seq flags gen owner (repeat NUL (pad_of flags owner) ++ concat data)) as (_ & _ & _ & _ & P5 & _). cbv zeta in P5.
    rewrite Nat2N.id.
    replace (18 + (length owner + 1 + pad_of flags owner)) with (pad_of flags owner + (18 + (length owner + 1))) by lia.
    rewrite <- (firstn_skipn (18 + (length owner + 1)) (scalar_of _ _ _ _ _)), P5.
    rewrite <- (app_nil_r (firstn _ _)). 
    set (a := firstn _ _). assert (La : length a = 18 + (length owner + 1)).
    { unfold a. rewrite firstn_length. unfold scalar_of. rewrite !app_length, !le_length. cbn [length]. lia. }
    rewrite app_nil_r, Nat.add_comm, app_assoc. apply skipn_app_len. rewrite app_length, repeat_length. lia.
  - intros X. unfold pad_of. rewrite X. lia.
  - unfold pad_of. destruct (has flags FL_ALIGN); lia.
Qed.

(* Messages *)
Lemma take_ok a b n : n = N.of_nat (length a) -> take n (a ++ b) = Ok (a, b).
Proof.
  intros ->. unfold take. rewrite app_length. destruct (N.leb_spec (N.of_nat (length a)) (N.of_nat (length a + length b))); [|lia].
  rewrite Nat2N.id, firstn_app_len, skipn_app_len by reflexivity. reflexivity.
Qed.
Lemma take_le n x b : take (N.of_nat n) (le n x ++ b) = Ok (le n x, b).
Proof. apply take_ok. rewrite le_length. reflexivity. Qed.

Definition items_bytes (v : list bytes) : bytes := concat (map (fun i => le 8 (N.of_nat (length i)) ++ i) v).
Lemma items_bytes_len v : length v <= length (items_bytes v).
Proof. induction v as [|i v IH]; [reflexivity|]. unfold items_bytes in *. cbn [map concat length]. rewrite !app_length, le_length. lia. Qed.
Lemma read_items_ok v p : (N.of_nat (length (items_bytes v)) < 2 ^ 32)%N ->
  read_items (length v) (items_bytes v ++ p) = Ok (v, p).
Proof.
  induction v as [|i v IH]; intros H; [reflexivity|].
  unfold items_bytes in *. cbn [map concat length read_items] in *. rewrite !app_length, le_length in H.
  rewrite <- !app_assoc. change 8%N with (N.of_nat 8). rewrite take_le. cbn [obind].
  rewrite unle8 by lia. rewrite take_ok by reflexivity. cbn [obind]. rewrite IH by lia. reflexivity.
Qed.

Lemma vector_bit f : has f VAL_FL_VECTOR = N.testbit f 0.
Proof.
  unfold has, VAL_FL_VECTOR. replace (N.land f 1) with (N.b2n (N.testbit f 0)).
  - destruct (N.testbit f 0); reflexivity.
  - change 1%N with (N.ones 1). rewrite N.land_ones. rewrite N.bit0_mod. reflexivity.
Qed.
Lemma read_record_ok r p : good_record r -> (N.of_nat (length (write_record r)) < 2 ^ 32)%N ->
  read_record (write_record r ++ p) = Ok (Some (r, p)).
Proof.
  intros (F & K & V) L. unfold read_record, write_record in *. rewrite !app_length, !le_length in L. cbn [length] in L.
  rewrite <- !app_assoc.
  change 4%N with (N.of_nat 4). rewrite take_le. cbn [obind]. change (N.of_nat 4) with 4%N.
  change 8%N with (N.of_nat 8). rewrite take_le. cbn [obind]. rewrite take_le. cbn [obind].
  rewrite (unle8 (N.of_nat (length (w_key r) + 1))) by lia.
  rewrite (app_assoc (w_key r) [NUL]), take_ok by (rewrite app_length; reflexivity). cbn [obind].
  rewrite string_ok by exact K. cbn [obind]. rewrite unle4 by exact F. rewrite vector_bit.
  destruct r as [f k [b|v]]; cbn [w_flags w_key w_val] in *.
  - destruct V as (-> & Lb). rewrite unle8 by lia. unfold SVALUE_HEADER_SIZE.
    destruct (N.leb_spec (N.of_nat (length b)) 18); [lia|]. rewrite take_ok by reflexivity. reflexivity.
  - destruct V as (-> & L4 & I0 & I1 & I2). fold (items_bytes v) in *. pose proof (items_bytes_len v).
    rewrite unle8 by lia. destruct (N.ltb_spec (N.of_nat (length v)) 4); [lia|].
    rewrite app_length. destruct (N.ltb_spec (N.of_nat (length (items_bytes v) + length p)) (N.of_nat (length v))); [lia|].
    rewrite Nat2N.id, read_items_ok by lia. cbn [obind]. unfold item. rewrite I0, I1, I2. reflexivity.
Qed.
Lemma write_record_pos r : 20 < length (write_record r).
Proof. unfold write_record. rewrite !app_length, !le_length. cbn [length]. lia. Qed.
Lemma read_records_ok l : forall fuel, Forall good_record l -> (N.of_nat (length (concat (map write_record l))) < 2 ^ 32)%N ->
  length l <= fuel -> read_records fuel (concat (map write_record l)) = Ok (Some l).
Proof.
  induction l as [|r l IH]; intros fuel G L Hf; [destruct fuel; reflexivity|].
  inversion G as [|r' l' Gr Gl]; subst. cbn [map concat length] in *. rewrite app_length in L. pose proof (write_record_pos r).
  destruct fuel as [|fuel]; [lia|]. cbn [read_records].
  destruct (write_record r ++ concat (map write_record l)) as [|c rest] eqn:E.
  { apply (f_equal (@length _)) in E. rewrite app_length in E. cbn [length] in E. lia. }
  rewrite <- E, read_record_ok by (assumption || lia). cbn [obind]. rewrite IH by (assumption || lia). reflexivity.
Qed.
Lemma records_len l : length l <= length (concat (map write_record l)).
Proof. induction l as [|r l IH]; [reflexivity|]. cbn [map concat length]. rewrite app_length. pose proof (write_record_pos r). lia. Qed.
Lemma message_lemma l : Forall good_record l -> (N.of_nat (length (write_message l)) <= 67108864)%N ->
  read_message (write_message l) = Ok (Some l).
Proof.
  intros G L. unfold read_message, write_message in *. set (body := concat (map write_record l)) in *.
  rewrite app_length, le_length in *. destruct (Nat.ltb_spec (4 + length body) 4); [lia|].
  rewrite firstn_app_len by apply le_length. unfold wrap32. rewrite N.mod_small by lia. rewrite unle4 by lia.
  destruct (N.leb_spec (N.of_nat (4 + length body)) 4) as [H1|H1].
  - destruct l as [|r l]; [reflexivity|]. pose proof (write_record_pos r). unfold body in H1. cbn [map concat] in H1. rewrite app_length in H1. lia.
  - unfold MSG_MAX. destruct (N.ltb_spec 67108864 (N.of_nat (4 + length body))); [lia|].
    rewrite <- (app_nil_r (le 4 _ ++ body)). rewrite take_ok by (rewrite app_length, le_length; reflexivity). cbn [obind].
    rewrite skipn_app_len by apply le_length. apply read_records_ok; [exact G| change (concat (map write_record l)) with body; lia |].
    pose proof (records_len l) as R. fold body in R. rewrite !app_length, le_length. lia.
Qed.
(* No two lists of records are written the same way *)
Lemma message_injective a b : Forall good_record a -> Forall good_record b ->
  (N.of_nat (length (write_message a)) <= 67108864)%N -> write_message a = write_message b -> a = b.
Proof.
  intros Ga Gb L E. pose proof (message_lemma a Ga L) as Ha. rewrite E in Ha, L. rewrite (message_lemma b Gb L) in Ha. congruence.
Qed.
(* A message above the limit is refused as a whole *)
Lemma too_big l : Forall good_record l -> (67108864 < N.of_nat (length (write_message l)) < 2 ^ 32)%N ->
  read_message (write_message l) = Ok None.
Proof.
  intros G L. unfold read_message, write_message in *. set (body := concat (map write_record l)) in *.
  rewrite app_length, le_length in *. destruct (Nat.ltb_spec (4 + length body) 4); [lia|].
  rewrite firstn_app_len by apply le_length. unfold wrap32. rewrite N.mod_small by lia. rewrite unle4 by lia.
  destruct (N.leb_spec (N.of_nat (4 + length body)) 4); [lia|].
  unfold MSG_MAX. destruct (N.ltb_spec 67108864 (N.of_nat (4 + length body))); [reflexivity|lia].
Qed.
