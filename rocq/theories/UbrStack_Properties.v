From Verif Require Import Base Kvs_Model UbrKey_Model UbrKey_Spec UbrDb_Model UbrDelta_Spec UbrRec_Model UbrStack_Model UbrStack_Spec UbrStack_Proofs.
Local Open Scope nat_scope.

(* C67. In a database of any devices whose lists name devices that are there and without a cycle, every query ends without an
   error, whatever the buffer on the stack held.  Asked about the device u (of the command, or by its key) it gives: *)
(* the devices directly below *)
Theorem stack_below_partial : forall d devs owner junk a, devices d devs -> length junk = 37 -> forall u q key, In (u, q) devs -> asks_down a key u q ->
  exists l, answers d owner junk a IMM_ANC key l
    /\ (forall x, In x l <-> exists v w, In (v, w) devs /\ x = dseq_item w /\ on_top d devs u v).
Proof. exact imm_anc. Qed.
Print Assumptions stack_below_partial.
(* all devices below *)
Theorem stack_all_below_partial : forall d devs owner junk a, devices d devs -> length junk = 37 -> no_cycle d devs ->
  forall u q key, In (u, q) devs -> asks_down a key u q ->
  exists l, answers d owner junk a ANC key l
    /\ (forall x, In x l <-> exists v w, In (v, w) devs /\ x = dseq_item w /\ above d devs u v).
Proof. exact all_anc. Qed.
Print Assumptions stack_all_below_partial.
(* those of them that are on top of nothing *)
Theorem stack_base_partial : forall d devs owner junk a, devices d devs -> length junk = 37 -> no_cycle d devs ->
  forall u q key, In (u, q) devs -> asks_down a key u q ->
  exists l, answers d owner junk a BASE key l
    /\ (forall x, In x l <-> exists v w, In (v, w) devs /\ x = dseq_item w /\ above d devs u v /\ forall t, ~ on_top d devs v t).
Proof. exact all_base. Qed.
Print Assumptions stack_base_partial.
(* the devices directly above *)
Theorem stack_over_partial : forall d devs owner junk a, devices d devs -> length junk = 37 -> forall u q key, In (u, q) devs -> asks_up a key u q ->
  exists l, answers d owner junk a IMM_DESC key l
    /\ (forall x, In x l <-> exists v w, In (v, w) devs /\ x = dev_item v /\ on_top d devs v u).
Proof. exact imm_desc. Qed.
Print Assumptions stack_over_partial.
(* all devices above *)
Theorem stack_all_over_partial : forall d devs owner junk a, devices d devs -> length junk = 37 -> no_cycle d devs ->
  forall u q key, In (u, q) devs -> asks_up a key u q ->
  exists l, answers d owner junk a DESC key l
    /\ (forall x, In x l <-> exists v w, In (v, w) devs /\ x = dev_item v /\ above d devs v u).
Proof. exact all_desc. Qed.
Print Assumptions stack_all_over_partial.
(* those of them with nothing on top *)
Theorem stack_top_partial : forall d devs owner junk a, devices d devs -> length junk = 37 -> no_cycle d devs ->
  forall u q key, In (u, q) devs -> asks_up a key u q ->
  exists l, answers d owner junk a TOP key l
    /\ (forall x, In x l <-> exists v w, In (v, w) devs /\ x = dev_item v /\ above d devs v u /\ forall t y, In (t, y) devs -> ~ on_top d devs t v).
Proof. exact all_top. Qed.
Print Assumptions stack_top_partial.
(* C67 does not hold when the device is given by its plain id, a UUID of 36 characters as the first branch of the code expects:
   the copy is not ended and what follows in memory is read on. *)
Theorem stack_plain_id_refuted : forall d owner a u old c, no_colon u -> ~ In NUL u -> length u = 36 -> length old = 36 -> c <> NUL ->
  get_dev_imm_deps d owner (old ++ [c]) a IMM_ANC (Some u) = UB.
Proof. exact plain_id_lemma. Qed.
Print Assumptions stack_plain_id_refuted.

(* a volume v on two partitions a and b of the disk d, and a device e apart; the disk also has another alias *)
Definition st_rec (l : list bytes) : rec := Rec 3 244 1 (B "/") l.
Definition st_list : list (bytes * rec) :=
  [(B ":ALS:M:/:dseq:1:#GMB", st_rec [B "::D:d:::"]); (B ":ALS:M:/:dseq:2:#GMB", st_rec [B "::D:a:::"]);
   (B ":ALS:M:/:dseq:3:#GMB", st_rec [B "::D:b:::"]); (B ":ALS:M:/:dseq:4:#GMB", st_rec [B "::D:v:::"]); (B ":ALS:M:/:dseq:5:#GMB", st_rec [B "::D:e:::"]);
   (B "::D:d:::#GIN", st_rec [B ":ALS:M:/:devno:8_0:"; B ":ALS:M:/:dseq:1:"]); (B "::D:a:::#GIN", st_rec [B ":ALS:M:/:dseq:2:"]);
   (B "::D:b:::#GIN", st_rec [B ":ALS:M:/:dseq:3:"]); (B "::D:v:::#GIN", st_rec [B ":ALS:M:/:dseq:4:"]); (B "::D:e:::#GIN", st_rec [B ":ALS:M:/:dseq:5:"]);
   (B "::D:v:::#GMB", st_rec [B ":ALS:M:/:dseq:2:"; B ":ALS:M:/:dseq:3:"]); (B "::D:a:::#GMB", st_rec [B ":ALS:M:/:dseq:1:"]);
   (B "::D:b:::#GMB", st_rec [B ":ALS:M:/:dseq:1:"]);
   (B ":ALS:M:/:dseq:1:#GIN", st_rec [B "::D:a:::"; B "::D:b:::"]); (B ":ALS:M:/:dseq:2:#GIN", st_rec [B "::D:v:::"]);
   (B ":ALS:M:/:dseq:3:#GIN", st_rec [B "::D:v:::"])].
Fixpoint st_find (l : list (bytes * rec)) (k : bytes) : option rec :=
  match l with [] => None | (x, r) :: l => if key_eqb k x then Some r else st_find l k end.
Definition st_db (l : list (bytes * rec)) : db := Db (st_find l) (fun _ => false).
Definition st_devs : list (bytes * bytes) := [(B "d", B "1"); (B "a", B "2"); (B "b", B "3"); (B "v", B "4"); (B "e", B "5")].
Definition st_asker : asker := Asker (Ucmd (DevCtx (Some (B "8_3")) (Some (B "v"))) 3 1) (Some (B "4")).
Definition st_get m key := dev_stack_get 5 (st_db st_list) (B "/type/dm") (repeat "x"%char 37) st_asker m key.
Example stack_queries_run :
  st_get IMM_ANC None = Some (Ok (0%Z, Some [dseq_item (B "2"); dseq_item (B "3")]))
  /\ st_get ANC None = Some (Ok (0%Z, Some [dseq_item (B "2"); dseq_item (B "3"); dseq_item (B "1"); dseq_item (B "1")]))
  /\ st_get BASE (Some (dseq_item (B "4"))) = Some (Ok (0%Z, Some [dseq_item (B "1"); dseq_item (B "1")]))
  /\ st_get BASE (Some (dseq_item (B "1"))) = Some (Ok (0%Z, None))
  /\ st_get IMM_DESC (Some (dev_item (B "d"))) = Some (Ok (0%Z, Some [dev_item (B "a"); dev_item (B "b")]))
  /\ st_get DESC (Some (dev_item (B "d"))) = Some (Ok (0%Z, Some [dev_item (B "a"); dev_item (B "b"); dev_item (B "v"); dev_item (B "v")]))
  /\ st_get TOP (Some (dev_item (B "d"))) = Some (Ok (0%Z, Some [dev_item (B "v"); dev_item (B "v")]))
  /\ st_get TOP None = Some (Ok (0%Z, None)).
Proof. repeat split; vm_compute; reflexivity. Qed.
Definition st_rank (u : bytes) : nat := if key_eqb u (B "v") then 2 else if key_eqb u (B "d") then 0 else 1.
Ltac st_id := split; [intros H; vm_compute in H; intuition discriminate|split; [intros H; vm_compute in H; intuition discriminate|cbn; lia]].
Ltac st_in := let H := fresh in intros H; vm_compute in H; decompose [or] H; try contradiction; subst.
Example stack_case : devices (st_db st_list) st_devs /\ no_cycle (st_db st_list) st_devs /\ asks_down st_asker None (B "v") (B "4") /\ asks_up st_asker None (B "v") (B "4")
  /\ above (st_db st_list) st_devs (B "v") (B "d").
Proof.
  assert (R : forall u q v w, In (u, q) st_devs -> In (v, w) st_devs -> In (dseq_item w) (members (st_db st_list) (members_of (dev_item u))) -> st_rank v < st_rank u).
  { intros u q v w I J H. cbn [st_devs In] in I, J.
    repeat (destruct I as [I|I]; [injection I as <- <-; repeat (destruct J as [J|J]; [injection J as <- <-; vm_compute in H |- *; intuition (discriminate || lia)|]); destruct J|]); destruct I. }
  split; [|split; [|split; [left; split; reflexivity|split; [left; split; reflexivity|]]]].
  - intros u q I. cbn [st_devs In] in I.
    assert (E : forall l, Forall (fun x => exists k, x = B ":ALS:M:/:devno:" ++ k ++ B ":" /\ no_colon k) l -> Forall other_item l).
    { intros l F. apply (Forall_impl _ (P := fun x => exists k, x = B ":ALS:M:/:devno:" ++ k ++ B ":" /\ no_colon k)); [|exact F]. intros x (k & -> & N).
      exists (B "ALS"), (B "M"), (B "/"), (B "devno"), k. repeat (split; [first [exact N|intros H; vm_compute in H; intuition discriminate]|]). split; [reflexivity|discriminate]. }
    repeat (destruct I as [I|I]; [injection I as <- <-|]); try destruct I;
      (split; [st_id|]); (split; [st_id|]); (split; [eexists; split; [vm_compute; reflexivity|reflexivity]|]);
      (split; [|split; [|split; [|split; [|split]]]]).
    all: try (intros r H; vm_compute in H; (discriminate || (injection H as <-; reflexivity))).
    all: try (intros x H; vm_compute in H; decompose [or] H; try contradiction; subst;
              first [exists (B "d"), (B "1"); split; [vm_compute; tauto|reflexivity] | exists (B "a"), (B "2"); split; [vm_compute; tauto|reflexivity]
                    |exists (B "b"), (B "3"); split; [vm_compute; tauto|reflexivity] | exists (B "v"), (B "4"); split; [vm_compute; tauto|reflexivity]]).
    all: try (intros v w J; cbn [st_devs In] in J; repeat (destruct J as [J|J]; [injection J as <- <-|]); try destruct J; vm_compute; split; intuition discriminate).
    all: match goal with |- exists r a b, _ = Some r /\ _ = _ ++ dseq_item ?q :: b /\ _ =>
           eexists; first [ exists [], []; split; [vm_compute; reflexivity|]; split; [reflexivity|constructor]
                          | exists [B ":ALS:M:/:devno:8_0:"], []; split; [vm_compute; reflexivity|]; split; [reflexivity|] ] end.
    all: apply E; constructor; [exists (B "8_0"); split; [reflexivity|intros H; vm_compute in H; intuition discriminate]|constructor].
  - assert (G : forall u v, above (st_db st_list) st_devs u v -> forall q, In (u, q) st_devs -> st_rank v < st_rank u).
    { intros u v A. induction A as [u v (w & J & H)|u v t (w & J & H) A IH]; intros q I.
      - exact (R u q v w I J H).
      - pose proof (R u q v w I J H). specialize (IH w J). lia. }
    intros u q I A. specialize (G u u A q I). lia.
  - apply (Ab_more _ _ (B "v") (B "a") (B "d")); [exists (B "2")|apply Ab_one; exists (B "1")]; vm_compute; tauto.
Qed.

(* C67: on a cycle the queries never end (which cannot happen with real devices, but can with what is written down about them
   at different times). *)
Definition st_cycle : list (bytes * rec) :=
  [(B ":ALS:M:/:dseq:1:#GMB", st_rec [B "::D:a:::"]); (B ":ALS:M:/:dseq:2:#GMB", st_rec [B "::D:b:::"]);
   (B "::D:a:::#GMB", st_rec [B ":ALS:M:/:dseq:2:"]); (B "::D:b:::#GMB", st_rec [B ":ALS:M:/:dseq:1:"])].
Theorem stack_cycle_refuted : forall fuel, dev_stack_get fuel (st_db st_cycle) (B "/type/dm") (repeat "x"%char 37) st_asker ANC (Some (dseq_item (B "1"))) = None.
Proof. exact (cycle_lemma (st_db st_cycle) (B "/type/dm") (repeat "x"%char 37) st_asker (dseq_item (B "1")) (dseq_item (B "2")) eq_refl eq_refl). Qed.
Print Assumptions stack_cycle_refuted.

(* C68. Looking up an alias whose members are devices: nothing is written outside of the buffer, as long as the keys of all
   members but the last fit in it together.  Then either every id is in the buffer, each ended and at its place, or the error
   -ENOBUFS says that some id does not fit.  Missing: the case where the keys do not fit, where it is false, see below. *)
Theorem alias_lookup_partial : forall d key buf r ids, recs d (canonicalize_key key) = Some r -> r_data r = map dev_item ids ->
  Forall (fun v => no_colon v /\ ~ In NUL v) ids -> (N.of_nat (length buf) < 2147483648)%N -> place (removelast ids) <= length buf ->
  exists code mem, raw_alias_to_devid d key buf = Ok (code, mem) /\ length mem = length buf
    /\ (code = 0%Z /\ (forall a v b, ids = a ++ v :: b -> place a + length v < length buf /\ string_at (skipn (place a) mem) = Ok v)
        \/ code = (- ENOBUFS)%Z /\ exists a v b, ids = a ++ v :: b /\ length buf <= place a + length v).
Proof. exact alias_lookup_lemma. Qed.
Print Assumptions alias_lookup_partial.
Theorem alias_missing : forall d key buf, recs d (canonicalize_key key) = None -> raw_alias_to_devid d key buf = Ok ((- ENODATA)%Z, buf).
Proof. exact alias_missing_lemma. Qed.
Print Assumptions alias_missing.
(* C68 does not hold with a second member after a key that is longer than the buffer: the size left wraps around and the second
   id is written behind the buffer.  With the buffer of 37 bytes the callers give and UUIDs that is every alias of two devices. *)
Theorem alias_second_member_refuted : forall d key buf r v w ids, recs d (canonicalize_key key) = Some r -> r_data r = map dev_item (v :: w :: ids) ->
  no_colon v -> no_colon w -> (N.of_nat (length buf) < 2147483648)%N -> (N.of_nat (length w) < 2147483648)%N ->
  length v < length buf -> length buf < length v + 8 -> raw_alias_to_devid d key buf = UB.
Proof. exact alias_second_lemma. Qed.
Print Assumptions alias_second_member_refuted.
(* An alias without members is a success that leaves the buffer as it was. *)
Theorem alias_empty_refuted : forall d key buf r, recs d (canonicalize_key key) = Some r -> r_data r = [] -> raw_alias_to_devid d key buf = Ok (0%Z, buf).
Proof. exact alias_empty_lemma. Qed.
Print Assumptions alias_empty_refuted.
Definition al_u1 : bytes := B "4f2c7d3e-6a51-4b0e-9d8c-1f2e3a4b5c6d".
Definition al_u2 : bytes := B "9b1e0c2d-3f4a-4c5b-8e7d-6a5b4c3d2e1f".
Definition al_db (l : list bytes) : db := st_db [(B ":ALS:M:/:devno:8_0:#GMB", st_rec (map dev_item l))].
Definition al_get l n := alias_to_devid (al_db l) (a_cmd st_asker) (B "/") (B "devno") (B "8_0") (repeat "x"%char n).
Example alias_case :
  al_get [al_u1] 37 = Ok (0%Z, al_u1 ++ [NUL]) /\ al_get [al_u1] 36 = Ok ((- ENOBUFS)%Z, repeat "x"%char 36)
  /\ al_get [al_u1; al_u2] 37 = UB
  /\ al_get [al_u1; al_u2] 82 = Ok (0%Z, al_u1 ++ NUL :: repeat "x"%char 7 ++ al_u2 ++ NUL :: [ "x"%char])
  /\ al_get [B "u"; B "w"] 16 = Ok (0%Z, B "u" ++ NUL :: repeat "x"%char 7 ++ B "w" ++ NUL :: repeat "x"%char 5)
  /\ al_get [B "u"; B "w"] 10 = Ok ((- ENOBUFS)%Z, B "u" ++ NUL :: repeat "x"%char 8)
  /\ al_get [] 5 = Ok (0%Z, repeat "x"%char 5).
Proof. repeat split; vm_compute; reflexivity. Qed.
