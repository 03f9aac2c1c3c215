(* C10-C16: B+ tree. *)
From Verif Require Import Base Bptree_Model Bptree_Spec Bptree_Final.
From Coq Require Import Sorted.

(* keys b00, b01, ... in a scrambled order, some deleted again *)
Definition ex_key (n : nat) : list ascii := B "k" ++ [ascii_of_nat (97 + n)].
Definition ex_free : list bop :=
  map (fun n => BAdd (ex_key n) (N.of_nat n) 3) [7; 3; 11; 1; 9; 5; 13; 0; 2; 4; 6; 8; 10; 12; 14] ++
  [BDel (ex_key 5); BAdd (ex_key 7) 99 4; BDel (ex_key 0); BDel (ex_key 1);
   BUpdate (ex_key 2) (fun old => match old with Some _ => (BREMOVE, (0, 0)%N) | None => (BSKIP, (0, 0)%N) end);
   BUpdate (B "new") (fun _ => (BWRITE, (50, 6)%N))].
Definition ex_alias : list bop :=
  [BAdd (B "a") 1 3; BAdd (B "b") 2 4; BAlias (B "a") (B "c") false; BAlias (B "a") (B "d") false;
   BAlias (B "b") (B "c") true; BAlias (B "nokey") (B "e") false; BDel (B "a")].

(* C10: without aliases, the tree is the map of the last values stored; no call leaves the modelled behaviour. *)
Theorem bptree_is_map : forall o ops, 4 <= o -> forallb no_alias ops = true ->
  exists s cs, reaches o ops s cs /\ forall k, bptree_lookup s k = Ok (option_map pout (prun ops k)).
Proof. exact map_lemma. Qed.
Print Assumptions bptree_is_map.

Example bptree_is_map_ex : forallb no_alias ex_free = true /\ prun ex_free (ex_key 7) = Some (99, 4)%N /\
  prun ex_free (ex_key 5) = None /\ prun ex_free (ex_key 2) = None /\ prun ex_free (B "new") = Some (50, 6)%N.
Proof. vm_compute. repeat split. Qed.

(* C10, C15: with aliases, as long as no name is deleted while its record still has a smaller name. *)
Theorem bptree_is_map_with_aliases : forall o ops, 4 <= o -> safe [] ops -> few_aliases ops ->
  exists s, reaches o ops s (snd (grun [] ops)) /\ forall k, bptree_lookup s k = Ok (option_map out (glookup k (stored ops))).
Proof. exact alias_map_lemma. Qed.
Print Assumptions bptree_is_map_with_aliases.

Example ex_alias_safe : safe [] ex_alias.
Proof.
  repeat split; try exact I. intros g k' E H. vm_compute in E. injection E as <-.
  cbn in H. destruct H as [<-|[<-|[]]]; [right|left; reflexivity]. exists []. right. exists "a"%char, [], "d"%char, []. repeat split.
Qed.
Example bptree_is_map_with_aliases_ex : few_aliases ex_alias /\
  snd (grun [] ex_alias) = [0; 0; 0; 0; 0; -1; 0]%Z /\
  map fst (stored ex_alias) = [[B "d"]; [B "c"; B "b"]] /\ glookup (B "c") (stored ex_alias) = Some ([B "c"; B "b"], (2, 4)%N).
Proof. vm_compute. repeat split. Qed.

(* C11 *)
Theorem bptree_full_iter : forall o ops s cs fuel, safe [] ops -> few_aliases ops -> reaches o ops s cs ->
  length (names (stored ops)) < fuel ->
  exists l, iter_all fuel s (bptree_iter_create None None) = Ok (Some l) /\ lists l (fun _ => True) (stored ops).
Proof. exact full_iter_lemma. Qed.
Print Assumptions bptree_full_iter.

Definition ex_state (ops : list bop) : bpt :=
  match bptree_create 4 with
  | Some s0 => match brun s0 ops with Ok (s, _) => s | UB => s0 end
  | None => {| root := None; order := 0; meta := 0; dsize := 0; nent := 0; recs := fun _ => None; kobj := fun _ => None; bfresh := 0 |}
  end.
Example bptree_full_iter_ex :
  match iter_all 20 (ex_state ex_free) (bptree_iter_create None None) with
  | Ok (Some l) => map (fun e => (fst e, fst (snd e))) l =
      [(ex_key 3, (3, 3)); (ex_key 4, (4, 3)); (ex_key 6, (6, 3)); (ex_key 7, (99, 4)); (ex_key 8, (8, 3)); (ex_key 9, (9, 3));
       (ex_key 10, (10, 3)); (ex_key 11, (11, 3)); (ex_key 12, (12, 3)); (ex_key 13, (13, 3)); (ex_key 14, (14, 3)); (B "new", (50, 6))]%N
  | _ => False
  end.
Proof. vm_compute. reflexivity. Qed.

(* C12: exact when the start key is stored; otherwise nothing in the range is missed, nothing above the end key is
   given, and the order is right, but keys below the start key may be given as well.
   Missing: exactness for a start key that is not stored, which is refuted below. *)
Theorem bptree_range_iter_partial : forall o ops s cs ks ke fuel, safe [] ops -> few_aliases ops -> reaches o ops s cs ->
  length (names (stored ops)) < fuel ->
  exists l (from : list ascii -> bool), iter_all fuel s (bptree_iter_create (Some ks) (Some ke)) = Ok (Some l) /\
    lists l (fun k => from k = true /\ str_le k ke) (stored ops) /\ (forall k, str_le ks k -> from k = true) /\
    (glookup ks (stored ops) <> None -> lists l (fun k => str_le ks k /\ str_le k ke) (stored ops)).
Proof. exact range_iter_lemma. Qed.
Print Assumptions bptree_range_iter_partial.

Theorem bptree_until_iter : forall o ops s cs ke fuel, safe [] ops -> few_aliases ops -> reaches o ops s cs ->
  length (names (stored ops)) < fuel ->
  exists l, iter_all fuel s (bptree_iter_create None (Some ke)) = Ok (Some l) /\ lists l (fun k => str_le k ke) (stored ops).
Proof. exact until_iter_lemma. Qed.
Print Assumptions bptree_until_iter.

Theorem bptree_from_iter : forall o ops s cs ks fuel, safe [] ops -> few_aliases ops -> reaches o ops s cs ->
  length (names (stored ops)) < fuel -> glookup ks (stored ops) <> None ->
  exists l, iter_all fuel s (bptree_iter_create (Some ks) None) = Ok (Some l) /\ lists l (fun k => str_le ks k) (stored ops).
Proof. exact from_iter_lemma. Qed.
Print Assumptions bptree_from_iter.

Example bptree_range_iter_ex :
  match iter_all 20 (ex_state ex_free) (bptree_iter_create (Some (ex_key 6)) (Some (ex_key 9))) with
  | Ok (Some l) => map fst l = [ex_key 6; ex_key 7; ex_key 8; ex_key 9]
  | _ => False
  end.
Proof. vm_compute. reflexivity. Qed.

(* C12 as stated is false: a key below an absent start key is given. *)
Theorem bptree_range_iter_refuted : exists o ops s cs ks ke l k v,
  4 <= o /\ forallb no_alias ops = true /\ reaches o ops s cs /\
  iter_all 10 s (bptree_iter_create (Some ks) (Some ke)) = Ok (Some l) /\ In (k, v) l /\ str_lt k ks.
Proof.
  exists 4, [BAdd (B "a") 1 1; BAdd (B "c") 2 1].
  eexists. eexists. exists (B "b"), (B "d"). eexists. exists (B "a"). eexists.
  split; [lia|]. split; [reflexivity|]. split; [exists (ex_state []); split; vm_compute; reflexivity|].
  split; [vm_compute; reflexivity|]. split; [left; reflexivity|].
  exists []. right. exists "a"%char, [], "b"%char, []. repeat split.
Qed.
Print Assumptions bptree_range_iter_refuted.

(* C13 *)
Theorem bptree_prefix_iter : forall o ops s cs p fuel, safe [] ops -> few_aliases ops -> reaches o ops s cs ->
  length (names (stored ops)) < fuel ->
  exists l, iter_all fuel s (bptree_iter_create_prefix p) = Ok (Some l) /\ lists l (fun k => exists r, k = p ++ r) (stored ops).
Proof. exact prefix_iter_lemma. Qed.
Print Assumptions bptree_prefix_iter.

Example bptree_prefix_iter_ex :
  match iter_all 20 (ex_state (map (fun k => BAdd k 1 1) [B "ab"; B "b"; B "abc"; B "aa"; B "ac"; B "a"; B "abb"; B "abcd"; B "c"]))
          (bptree_iter_create_prefix (B "ab")) with
  | Ok (Some l) => map fst l = [B "ab"; B "abb"; B "abc"; B "abcd"]
  | _ => False
  end.
Proof. vm_compute. reflexivity. Qed.

(* C14 *)
Theorem bptree_balanced : forall o ops s cs, safe [] ops -> few_aliases ops -> reaches o ops s cs ->
  match root s with
  | None => names (stored ops) = []
  | Some t => balanced o (bptree_get_height s) true t /\
              (1 <= bptree_get_height s -> 2 * ((o + 1) / 2) ^ (bptree_get_height s - 1) * (o / 2) <= length (names (stored ops)))
  end.
Proof. exact balanced_lemma. Qed.
Print Assumptions bptree_balanced.

Example bptree_balanced_ex : bptree_get_height (ex_state ex_free) = 2 /\ length (names (stored ex_free)) = 12.
Proof. vm_compute. split; reflexivity. Qed.

(* C15: a successful bptree_add_alias makes both names denote the same record and leaves the data of all other names. *)
Theorem bptree_alias_same : forall o ops k a f s cs, safe [] ops -> few_aliases (ops ++ [BAlias k a f]) ->
  reaches o (ops ++ [BAlias k a f]) s cs -> last cs 1%Z = 0%Z ->
  bptree_lookup s a = bptree_lookup s k /\ bptree_lookup s k <> Ok None /\
  forall j, j <> a -> data (bptree_lookup s j) = Ok (option_map snd (glookup j (stored ops))).
Proof. exact alias_same_lemma. Qed.
Print Assumptions bptree_alias_same.

(* C15: deleting a name leaves all others, provided the name is the least one of its record.
   Missing: deletion of a name whose record has a smaller name, which is refuted below. *)
Theorem bptree_alias_delete_partial : forall o ops k s cs, safe [] (ops ++ [BDel k]) -> few_aliases ops -> reaches o (ops ++ [BDel k]) s cs ->
  bptree_lookup s k = Ok None /\ forall j, j <> k -> data (bptree_lookup s j) = Ok (option_map snd (glookup j (stored ops))).
Proof. exact delete_one_lemma. Qed.
Print Assumptions bptree_alias_delete_partial.

Example bptree_alias_delete_ex :
  let ops := [BAdd (B "a") 1 3; BAdd (B "b") 2 4; BAlias (B "a") (B "c") false; BAlias (B "a") (B "d") false; BAlias (B "b") (B "c") true] in
  safe [] (ops ++ [BDel (B "a")]) /\ few_aliases ops /\
  data (bptree_lookup (ex_state (ops ++ [BDel (B "a")])) (B "d")) = Ok (Some (1, 3)%N).
Proof.
  split; [|vm_compute; split; reflexivity].
  repeat split; try exact I. intros g k' E H. vm_compute in E. injection E as <-.
  cbn in H. destruct H as [<-|[<-|[]]]; [right|left; reflexivity]. exists []. right. exists "a"%char, [], "d"%char, []. repeat split.
Qed.

(* C15 as stated is false: deleting the alias "c" of "a" makes "a" denote the record of "b" and "b" that of "a". *)
Theorem bptree_alias_delete_refuted : exists o ops k j s1 cs1 s2 cs2, 4 <= o /\ j <> k /\
  reaches o ops s1 cs1 /\ reaches o (ops ++ [BDel k]) s2 cs2 /\
  data (bptree_lookup s2 j) <> data (bptree_lookup s1 j).
Proof.
  exists 4, [BAdd (B "a") 1 3; BAdd (B "b") 2 4; BAlias (B "a") (B "c") false], (B "c"), (B "a").
  eexists. eexists. eexists. eexists. split; [lia|]. split; [discriminate|].
  split; [exists (ex_state []); split; vm_compute; reflexivity|].
  split; [exists (ex_state []); split; vm_compute; reflexivity|]. vm_compute. discriminate.
Qed.
Print Assumptions bptree_alias_delete_refuted.

(* C16: one entry per record; 40 bytes for the tree, 24 per record, 32 + 8 (o - 1) + 8 o per node and 16 + length + 1
   per name, plus the data sizes; all modulo 2^64. *)
Theorem bptree_accounting : forall o ops s cs, safe [] ops -> few_aliases ops -> reaches o ops s cs ->
  let gs := stored ops in
  let mt := (40 + 24 * N.of_nat (length gs) + N.of_nat (match root s with None => 0 | Some t => count_nodes t end) *
             (32 + 8 * (N.of_nat o - 1) + 8 * N.of_nat o) + name_bytes (names gs))%N in
  bptree_get_entry_count s = wrap64 (N.of_nat (length gs)) /\
  bptree_get_size s = (wrap64 (mt + data_bytes gs), wrap64 mt, wrap64 (data_bytes gs)).
Proof. exact account_lemma. Qed.
Print Assumptions bptree_accounting.

Example bptree_accounting_ex : bptree_get_entry_count (ex_state ex_free) = 12%N /\ length (stored ex_free) = 12 /\
  bptree_get_entry_count (ex_state ex_alias) = 2%N /\ data_bytes (stored ex_alias) = 7%N /\
  snd (bptree_get_size (ex_state ex_alias)) = 7%N.
Proof. vm_compute. repeat split; reflexivity. Qed.
