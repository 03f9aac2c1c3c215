From Verif Require Import Base UbrDb_Model UbrRec_Model UbrRec_Spec Base64_Model Fmt_Model Json_Spec Fmt_Spec Fmt_Proofs2 Doc_Model Doc_Spec Doc_Proofs2 Doc_Proofs3 Doc_Proofs4 Doc_Proofs5.
Local Open Scope nat_scope.

(* C87: the dump of any records whose lists are separated is JSON that reads as those records, with their number, key without the
   mark of the sync index, generation, sequence number, names of the flags, owner and value.  Missing: texts that need escaping,
   other lists (refuted below) *)
Theorem dump_json_partial : exists b64, (forall v, base64_text v (b64 v)) /\ forall rs js, records_shown b64 0 rs js -> Forall (fun r => separated (snd r)) rs ->
  exists os t, dump rs = Ok (Some os) /\ emits JSON os = t ++ [NUL] /\ parse t = Some (JObj [(B "siddb", JArr js)]).
Proof. exact dump_good. Qed.
Print Assumptions dump_json_partial.
Definition doc_head (flags : N) : list bytes := [le 8 7; le 8 flags; le 2 3; B "mod" ++ [NUL]].
Definition doc_scalar (d : bytes) : stored := Scalar (List.concat (doc_head 2 ++ [d])).
Definition doc_vector (ds : list bytes) : stored := Vector (doc_head 18 ++ ds).
Lemma doc_scalar_as d : stored_as (doc_scalar d) 7 2 3 (B "mod") [d].
Proof. split; [repeat split; cbn; intros H; decompose [or] H; (discriminate || contradiction)|]. exists (doc_head 2). split; [reflexivity|]. exists d. split; reflexivity. Qed.
Lemma doc_vector_as ds : stored_as (doc_vector ds) 7 18 3 (B "mod") ds.
Proof. split; [repeat split; cbn; intros H; decompose [or] H; (discriminate || contradiction)|]. exists (doc_head 18). split; reflexivity. Qed.
Definition doc_rs : list (bytes * stored) := [(B "::D:x:::a", doc_scalar (B "v" ++ [NUL])); (B ">::D:x:::b", doc_vector [B "m" ++ [NUL]; [ascii_of_nat 1]])].
Example dump_json_case : forall b64, records_shown b64 0 doc_rs
  [JObj [(B "RECORD", JInt 0); (B "key", JStr (B "::D:x:::a")); (B "gennum", JInt 3); (B "seqnum", JInt 7); (B "flags", JArr [JStr (B "SC")]); (B "owner", JStr (B "mod")); (B "value", JStr (B "v"))];
   JObj [(B "RECORD", JInt 1); (B "key", JStr (B "::D:x:::b")); (B "gennum", JInt 3); (B "seqnum", JInt 7); (B "flags", JArr [JStr (B "SC"); JStr (B "RS")]); (B "owner", JStr (B "mod"));
         (B "values", JArr [JStr (B "m"); JStr (b64 [ascii_of_nat 1])])]]
  /\ Forall (fun r => separated (snd r)) doc_rs.
Proof.
  intros b64. split.
  - apply Rs_more; [|apply Rs_more; [|apply Rs_none]].
    + apply (Shown b64 0 [] (B "::D:x:::a") (doc_scalar (B "v" ++ [NUL])) 7 2 3 (B "mod") [B "v" ++ [NUL]] [JStr (B "v")]); [left; reflexivity|discriminate|apply plain_dec; reflexivity..|exact (fun _ => I)|apply doc_scalar_as|].
      constructor; [|constructor]. apply D_string; [apply string_data_dec; reflexivity|apply plain_dec; reflexivity].
    + apply (Shown b64 1 (B ">") (B "::D:x:::b") (doc_vector [B "m" ++ [NUL]; [ascii_of_nat 1]]) 7 18 3 (B "mod") [B "m" ++ [NUL]; [ascii_of_nat 1]] [JStr (B "m"); JStr (b64 [ascii_of_nat 1])]);
        [right; left; reflexivity|discriminate|apply plain_dec; reflexivity..| |apply doc_vector_as|].
      * intros (op & dom & rest & N1 & N2 & E). destruct op as [|a op]; [|injection E as Ea _; apply N1; left; symmetry; exact Ea]. injection E as E. destruct dom as [|a dom]; [|injection E as Ea _; apply N2; left; symmetry; exact Ea]. discriminate E.
      * constructor; [apply D_string; [apply string_data_dec; reflexivity|apply plain_dec; reflexivity]|]. constructor; [|constructor]. apply D_binary; [discriminate|apply not_string; discriminate].
  - constructor; [intros ? ? ? ? ? ?; exact I|]. constructor; [|constructor]. intros seq flags gen owner ds A. cbn [snd] in *. rewrite <- (stored_same _ _ _ _ _ _ _ _ _ _ _ (doc_vector_as _) A). cbn beta iota.
    split; [right; exists (B "m"); apply string_data_dec; reflexivity|intros [H|[]]; discriminate H].
Qed.

(* C87 refuted: whatever the records, a list among them that is not separated makes the dump something else than JSON *)
Theorem dump_lists_refuted : exists b64, (forall v, base64_text v (b64 v)) /\ forall rs js, records_shown b64 0 rs js -> ~ Forall (fun r => separated (snd r)) rs ->
  exists os t, dump rs = Ok (Some os) /\ emits JSON os = t ++ [NUL] /\ parse t = None.
Proof. exact dump_bad. Qed.
Print Assumptions dump_lists_refuted.
Example dump_lists_refuted_case :
  dump [(B "::D:x:::b", doc_vector [[ascii_of_nat 1]])] = Ok (Some [DocStart 0; ArrStart 1 (B "siddb") false; ElmStart 2 false; FldUint 3 (B "RECORD") 0 false; FldStr 3 (B "key") (B "::D:x:::b") true; FldUint 3 (B "gennum") 3 true;
    FldUint64 3 (B "seqnum") 7 true; ArrStart 3 (B "flags") true; AStr 4 (B "SC") false; AStr 4 (B "RS") true; ArrEnd 3; FldStr 3 (B "owner") (B "mod") true; ArrStart 3 (B "values") true; ABin 4 [ascii_of_nat 1] true; ArrEnd 3; ElmEnd 2;
    ArrEnd 1; DocEnd 0; NullByte])
  /\ emit JSON (ArrStart 3 (B "values") true) ++ emit JSON (ABin 4 [ascii_of_nat 1] true) ++ emit JSON (ArrEnd 3)
     = B "," ++ [LF] ++ B "            ""values"": ["%string ++ B "," ++ [LF] ++ B "                ""AQ=="""%string ++ [LF] ++ B "            ]"
  /\ dump [(B ":K:U:x:::n", doc_vector [B "m" ++ [NUL]])] = Ok None.
Proof. vm_compute. repeat split. Qed.

(* C88: the list of devices is JSON and reads as the devices with their groups, members and states, provided the lists are separated
   and the first record is not a ready or reserved state.  Missing: the other cases, refuted below *)
Theorem devices_json_partial : exists b64, (forall v, base64_text v (b64 v)) /\ forall rs js, devices_shown b64 None rs js -> groups_separated rs -> ~ begins_with_state rs ->
  exists os t, devices rs = Ok os /\ emits JSON os = t ++ [NUL] /\ parse t = Some (JObj [(B "siddevices", JArr js)]).
Proof. exact devices_good. Qed.
Print Assumptions devices_json_partial.
Definition dev_state (n : N) : stored := doc_scalar (le 4 n).
Definition doc_devs : list (bytes * stored) :=
  [(dev_key (B "d1") [] [] (B "#GIN"), doc_vector [B "g1" ++ [NUL]; B "g2" ++ [NUL]]); (dev_key (B "d1") [] [] (B "#RDY"), dev_state 8); (dev_key (B "d1") (B "C") (B "i") (B "other"), doc_scalar (B "v"));
   (dev_key (B "d2") [] [] (B "#RES"), dev_state 3)].
Example devices_json_case : forall b64, devices_shown b64 None doc_devs
  [JObj [(B "DEVID", JStr (B "d1")); (B "#GIN", JArr [JStr (B "g1"); JStr (B "g2")]); (B "#RDY", JStr (B "RDY_PUBLIC"))]; JObj [(B "DEVID", JStr (B "d2")); (B "#RES", JStr (B "RES_USED"))]]
  /\ groups_separated doc_devs /\ ~ begins_with_state doc_devs.
Proof.
  assert (N1 : ~ In ":"%char (B "d1")) by (intros H; cbn in H; decompose [or] H; (discriminate || contradiction)). assert (N2 : ~ In ":"%char (B "d2")) by (intros H; cbn in H; decompose [or] H; (discriminate || contradiction)).
  assert (NC : ~ In ":"%char (B "C")) by (intros H; cbn in H; decompose [or] H; (discriminate || contradiction)). assert (Ni : ~ In ":"%char (B "i")) by (intros H; cbn in H; decompose [or] H; (discriminate || contradiction)).
  intros b64. split; [|split].
  - apply (Ds_more b64 None (B "d1") (dev_key (B "d1") [] [] (B "#GIN"), doc_vector [B "g1" ++ [NUL]; B "g2" ++ [NUL]]) [(dev_key (B "d1") [] [] (B "#RDY"), dev_state 8); (dev_key (B "d1") (B "C") (B "i") (B "other"), doc_scalar (B "v"))]
      [(B "#GIN", JArr [JStr (B "g1"); JStr (B "g2")]); (B "#RDY", JStr (B "RDY_PUBLIC"))] [(dev_key (B "d2") [] [] (B "#RES"), dev_state 3)]); [discriminate|cbn; lia|exact N1|apply plain_dec; reflexivity|discriminate| |].
    + apply (Dr_more b64 (B "d1") [] [] (B "#GIN") _ _ [(B "#GIN", JArr [JStr (B "g1"); JStr (B "g2")])]); [intros []..| |apply (Dr_more b64 (B "d1") [] [] (B "#RDY") _ _ [(B "#RDY", JStr (B "RDY_PUBLIC"))]); [intros []..| |apply (Dr_more b64 (B "d1") (B "C") (B "i") (B "other") _ _ []); [exact NC|exact Ni| |apply Dr_none]]].
      * apply (Fd_group b64 (B "#GIN") (doc_vector [B "g1" ++ [NUL]; B "g2" ++ [NUL]]) 7 18 3 (B "mod") _ [JStr (B "g1"); JStr (B "g2")] (or_introl eq_refl) (doc_vector_as _) I).
        constructor; [|constructor; [|constructor]]; (apply D_string; [apply string_data_dec; reflexivity|apply plain_dec; reflexivity]).
      * exact (Fd_ready b64 (B "#RDY") _ 7 2 3 (B "mod") 8 (B "RDY_PUBLIC") eq_refl (doc_scalar_as (le 4 8)) eq_refl).
      * apply Fd_other. cbn. intros H. decompose [or] H; (discriminate || contradiction).
    + apply (Ds_more b64 (Some (B "d1")) (B "d2") (dev_key (B "d2") [] [] (B "#RES"), dev_state 3) [] [(B "#RES", JStr (B "RES_USED"))] []); [discriminate|cbn; lia|exact N2|apply plain_dec; reflexivity|discriminate| |apply Ds_none].
      apply (Dr_more b64 (B "d2") [] [] (B "#RES") _ _ [(B "#RES", JStr (B "RES_USED"))]); [intros []..| |apply Dr_none]. exact (Fd_reserved b64 (B "#RES") _ 7 2 3 (B "mod") 3 (B "RES_USED") eq_refl (doc_scalar_as (le 4 3)) eq_refl).
  - intros devid cat id core s I A1 A2 A3 _. cbn [In doc_devs] in I. destruct I as [I|[I|[I|[I|[]]]]]; injection I as _ <-; try exact (fun _ _ _ _ _ _ => I).
    apply (separated_strings 7 18 3 (B "mod") _ [B "g1"; B "g2"]); [apply (doc_vector_as [B "g1" ++ [NUL]; B "g2" ++ [NUL]])|reflexivity].
  - intros (devid & cat & id & core & s & rest & E & A1 & A2 & A3 & Ic). assert (E' : dev_key (B "d1") [] [] (B "#GIN") = dev_key devid cat id core) by exact (f_equal (fun l => match l with r :: _ => fst r | [] => [] end) E).
    apply dev_key_inj in E'; [|exact N1|intros []..|assumption|assumption|assumption]. subst core. cbn in Ic. decompose [or] Ic; (discriminate || contradiction).
Qed.

(* C88 refuted: otherwise the list of devices is not JSON, whatever the records *)
Theorem devices_json_refuted : exists b64, (forall v, base64_text v (b64 v)) /\ forall rs js, devices_shown b64 None rs js -> ~ groups_separated rs \/ begins_with_state rs ->
  exists os t, devices rs = Ok os /\ emits JSON os = t ++ [NUL] /\ parse t = None.
Proof. exact devices_bad. Qed.
Print Assumptions devices_json_refuted.
Example devices_json_refuted_case : devices [(dev_key (B "d2") [] [] (B "#RES"), dev_state 3)]
    = Ok [DocStart 0; ArrStart 1 (B "siddevices") false; ElmStart 2 false; FldStr 3 (B "DEVID") (B "d2") false; FldStr 3 (B "#RES") (B "RES_USED") false; ElmEnd 2; ArrEnd 1; DocEnd 0; NullByte]
  /\ emit JSON (FldStr 3 (B "DEVID") (B "d2") false) ++ emit JSON (FldStr 3 (B "#RES") (B "RES_USED") false)
     = [LF] ++ B "            ""DEVID"": ""d2"""%string ++ [LF] ++ B "            ""#RES"": ""RES_USED"""%string
  /\ devices [(dev_key (B "d2") [] [] (B "#RES"), dev_state 9)] = UB
  /\ devices [(dev_key (B "d2") [] [] (B "#GMB"), Scalar (List.concat ([le 8 7; le 8 1; le 2 3; B "mod" ++ [NUL]; [NUL; NUL]; B "v"])))] = UB.
Proof. vm_compute. repeat split. Qed.

(* C89: the reply to a resources command is JSON that reads as the tree of the main process and that of the worker: for each resource
   its id, type, event sources, process, flags, priority, references and children *)
Theorem resources_json : forall main worker j1 j2, tree_shown main j1 -> tree_shown worker j2 ->
  exists t, emits JSON (resources main worker) = t ++ [NUL] /\ parse t = Some (JObj [(B "sidresources", JArr [j1; j2])]).
Proof. exact resources_lemma. Qed.
Print Assumptions resources_json.
Definition doc_leaf : rtree := RTree (B "leaf") None [] 5 0 3 1 [].
Definition doc_tree : rtree := RTree (B "top") (Some (B "daemon")) [(B "timer", 5%N, 2%N); (B "io", 18446744073709551615%N, 0%N)] 4 3 (-1) 2 [doc_leaf; doc_leaf].
Definition leaf_json : json := JObj [(B "ID", JStr (B "leaf")); (B "pid-created", JInt 5); (B "flags", JInt 0); (B "prio", JInt 3); (B "ref-count", JInt 1)].
Example resources_json_case : tree_shown doc_leaf leaf_json /\ tree_shown doc_tree
  (JObj [(B "ID", JStr (B "top")); (B "type", JStr (B "daemon"));
     (B "event-sources", JArr [JObj [(B "name", JStr (B "io")); (B "events_max", JInt 18446744073709551615); (B "events_fired", JInt 0)]; JObj [(B "name", JStr (B "timer")); (B "events_max", JInt 5); (B "events_fired", JInt 2)]]);
     (B "pid-created", JInt 4); (B "flags", JInt 3); (B "prio", JInt (-1)); (B "ref-count", JInt 2); (B "children", JArr [leaf_json; leaf_json])]).
Proof.
  assert (L : tree_shown doc_leaf leaf_json) by (apply (Ts (B "leaf") None [] 5 0 3 1 [] []); [apply plain_dec; reflexivity|exact I|intros ? ? ? []|apply Tss_none]). split; [exact L|].
  apply (Ts (B "top") (Some (B "daemon")) [(B "timer", 5%N, 2%N); (B "io", 18446744073709551615%N, 0%N)] 4 3 (-1) 2 [doc_leaf; doc_leaf] [leaf_json; leaf_json]); [apply plain_dec; reflexivity..| |apply Tss_more; [exact L|apply Tss_more; [exact L|apply Tss_none]]].
  intros n a b [H|[H|[]]]; injection H as <- _ _; apply plain_dec; reflexivity.
Qed.

(* C89: the replies to the version and dbstats commands read as the numbers they were made of *)
Theorem version_json : forall protocol major minor release, exists t, emits JSON (version protocol major minor release) = t ++ [NUL]
  /\ parse t = Some (JObj [(B "SID_IFC_PROTOCOL", JInt (Z.of_N protocol)); (B "SID_MAJOR", JInt (Z.of_N major)); (B "SID_MINOR", JInt (Z.of_N minor)); (B "SID_RELEASE", JInt (Z.of_N release))]).
Proof. exact version_lemma. Qed.
Print Assumptions version_json.
Theorem dbstats_json : forall keys int int_data ext ext_data meta pairs, exists t, emits JSON (dbstats keys int int_data ext ext_data meta pairs) = t ++ [NUL]
  /\ parse t = Some (JObj [(B "KEYS_SIZE", JInt (Z.of_N keys)); (B "VALUES_INTERNAL_SIZE", JInt (Z.of_N int)); (B "VALUES_INTERNAL_DATA_SIZE", JInt (Z.of_N int_data)); (B "VALUES_EXTERNAL_SIZE", JInt (Z.of_N ext));
       (B "VALUES_EXTERNAL_DATA_SIZE", JInt (Z.of_N ext_data)); (B "METADATA_SIZE", JInt (Z.of_N meta)); (B "NR_KEY_VALUE_PAIRS", JInt (Z.of_N pairs))]).
Proof. exact dbstats_lemma. Qed.
Print Assumptions dbstats_json.
Example version_json_case : emits JSON (version 2 0 0 9) = B "{" ++ [LF] ++ B "    ""SID_IFC_PROTOCOL"": 2,"%string ++ [LF] ++ B "    ""SID_MAJOR"": 0,"%string ++ [LF] ++ B "    ""SID_MINOR"": 0,"%string ++ [LF]
  ++ B "    ""SID_RELEASE"": 9"%string ++ [LF] ++ B "}" ++ [LF] ++ [NUL].
Proof. reflexivity. Qed.
