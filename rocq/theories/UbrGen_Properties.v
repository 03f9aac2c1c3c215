From Verif Require Import Base UbrKey_Model UbrDb_Model UbrDelta_Spec UbrRec_Model UbrRec_Spec UbrSync_Model UbrSync_Spec UbrGen_Model UbrGen_Spec UbrGen_Proofs.
Local Open Scope nat_scope.

(* C66. However often the daemon is started again with the file it saved, and whatever else it does to its records, every
   generation number is greater than all earlier ones, up to 65535 starts and for files of at most 64 MiB.  Missing: it does
   not hold without these bounds, see below. *)
Theorem generation_increases_partial : forall gs d, life gs d -> (N.of_nat (length gs) < 65536)%N ->
  forall newer g older, gs = newer ++ g :: older -> forall g', In g' older -> (g' < g)%N.
Proof. exact increasing_lemma. Qed.
Print Assumptions generation_increases_partial.
(* C66. The numbers are 1, 2, 3, ... and the current one is in the database with each of them. *)
Theorem generation_numbers_partial : forall gs d, life gs d -> forall n, length gs = n -> (N.of_nat n < 65536)%N ->
  recs d (B "::G::::#DBGEN") = Some (Rec 0 245 (N.of_nat n) (B "/") [le 2 (N.of_nat n)]) /\ gs = map N.of_nat (rev (seq 1 n)).
Proof. exact life_lemma. Qed.
Print Assumptions generation_numbers_partial.
(* C66. Starting again with what was saved never fails; the next number is taken (modulo 65536) and every persistent record
   that stands for a value is there again as it was, all others are gone. *)
Theorem restart_keeps : forall vec d keys g b, savable vec d keys -> vec (B "::G::::#DBGEN") = false ->
  recs d (B "::G::::#DBGEN") = Some (Rec 0 245 g (B "/") [le 2 g]) -> (g < 65536)%N ->
  exists file, save vec d keys = Ok (Some file) /\ ((N.of_nat (length file) <= 67108864)%N ->
    exists d', start (Some file) b = Ok (d', ((g + 1) mod 65536)%N)
      /\ recs d' (B "::G::::#DBGEN") = Some (Rec 0 245 ((g + 1) mod 65536) (B "/") [le 2 ((g + 1) mod 65536)])
      /\ forall k, main_key k -> k <> B "::G::::#DBGEN" -> k <> B "::G::::#BOOTID" ->
           (forall r, recs d k = Some r -> persistent r -> ~ removal (Srec (vec k) k r) -> recs d' k = Some r)
           /\ (forall r, recs d k = Some r -> ~ persistent r \/ removal (Srec (vec k) k r) -> recs d' k = None)
           /\ (recs d k = None -> recs d' k = None)).
Proof. exact again_lemma. Qed.
Print Assumptions restart_keeps.
Theorem first_generation : forall b, exists d, start None b = Ok (d, 1%N)
  /\ recs d (B "::G::::#DBGEN") = Some (Rec 0 245 1 (B "/") [le 2 1])
  /\ forall k, k <> B "::G::::#DBGEN" -> k <> B "::G::::#BOOTID" -> recs d k = None.
Proof. exact start_none. Qed.
Print Assumptions first_generation.

(* a database with a member list, a value, one that is not persistent and an archived one *)
Definition gen_vec (k : bytes) : bool := key_eqb k (B ":GRP:D:8_0:::#GMB").
Definition gen_list : list (bytes * rec) :=
  [(B "::G::::#DBGEN", Rec 0 245 9 (B "/") [le 2 9]);
   (B ":GRP:D:8_0:::#GMB", Rec 3 20 9 (B "/") [B ":ALS:D:dseq::1:"; B ":ALS:D:dseq::2:"]);
   (B ":USR:D:8_0:::N", Rec 4 12 9 (B "/type/dm") [B "new" ++ [NUL]]);
   (B ":USR:D:8_0:::T", Rec 4 2 9 (B "/type/dm") [B "tmp" ++ [NUL]]);
   (B "~:USR:D:8_0:::N", Rec 2 12 8 (B "/type/dm") [B "old" ++ [NUL]])].
Fixpoint gen_find (l : list (bytes * rec)) (k : bytes) : option rec :=
  match l with [] => None | (x, r) :: l => if key_eqb k x then Some r else gen_find l k end.
Definition gen_db : db := Db (gen_find gen_list) (fun _ => false).
Definition gen_loaded (d : db) : list (option rec) := map (recs d) (map fst gen_list).
Example generation_case :
  savable gen_vec gen_db (map fst gen_list) /\ gen_vec (B "::G::::#DBGEN") = false
  /\ match save gen_vec gen_db (map fst gen_list) with
     | Ok (Some file) => length file = 335 /\ match start (Some file) (B "id") with
       | Ok (d, g) => g = 10%N /\ gen_loaded d = [Some (Rec 0 245 10 (B "/") [le 2 10]); Some (Rec 3 20 9 (B "/") [B ":ALS:D:dseq::1:"; B ":ALS:D:dseq::2:"]);
                                     Some (Rec 4 12 9 (B "/type/dm") [B "new" ++ [NUL]]); None; Some (Rec 2 12 8 (B "/type/dm") [B "old" ++ [NUL]])]
       | UB => False
       end
     | _ => False
     end.
Proof.
  split; [|split; [reflexivity|vm_compute; tauto]]. unfold savable, keys_of.
  assert (F : forall k r, recs gen_db k = Some r -> In (k, r) gen_list).
  { intros k r. unfold gen_db. cbn [recs]. generalize gen_list. intros l. induction l as [|(x, q) l IH]; [discriminate|]. cbn [gen_find].
    unfold key_eqb. destruct (list_eq_dec ascii_dec k x) as [->|_]; [intros E; injection E as ->; left; reflexivity|right; apply IH, H]. }
  split; [split; [|split]|split].
  - cbn [map fst gen_list]. repeat constructor; cbn [In]; intros H; decompose [or] H; (discriminate || contradiction).
  - intros k Hk. destruct (recs gen_db k) as [r|] eqn:E; [|contradiction]. exact (in_map fst _ _ (F k r E)).
  - cbn [map fst gen_list]. repeat constructor; cbn [In]; try (left; reflexivity); try (right; reflexivity); vm_compute; intros H; decompose [or] H; (discriminate || contradiction).
  - intros k r E. destruct (F k r E) as [H|[H|[H|[H|[H|[]]]]]]; injection H as <- <-; (split;
      [repeat split; try reflexivity; vm_compute; intros H; decompose [or] H; (discriminate || contradiction)|]).
    2: cbn [gen_vec]; vm_compute; repeat constructor; intros H; decompose [or] H; (discriminate || contradiction).
    all: right; eexists; split; [|reflexivity]; discriminate.
  - intros k r E _. destruct (F k r E) as [H|[H|[H|[H|[H|[]]]]]]; injection H as <- _; intros N; reflexivity || discriminate N.
Qed.
(* two starts *)
Example generation_life_case : exists d, life [2%N; 1%N] d.
Proof.
  destruct (start None (B "id")) as [(d, g)|] eqn:E; [|discriminate].
  destruct (start_none (B "id")) as (d0 & E0 & R & O). rewrite E in E0. injection E0 as <- ->.
  assert (Rb : recs d (B "::G::::#BOOTID") = Some (Rec 0 244 1 (B "/") [B "id" ++ [NUL]])) by (injection E as <-; reflexivity).
  assert (K : forall k r, recs d k = Some r -> k = B "::G::::#DBGEN" /\ r = Rec 0 245 1 (B "/") [le 2 1]
                                    \/ k = B "::G::::#BOOTID" /\ r = Rec 0 244 1 (B "/") [B "id" ++ [NUL]]).
  { intros k r Ek. destruct (list_eq_dec ascii_dec k (B "::G::::#DBGEN")) as [->|N1]; [left; rewrite R in Ek; injection Ek as <-; split; reflexivity|].
    destruct (list_eq_dec ascii_dec k (B "::G::::#BOOTID")) as [->|N2]; [right; rewrite Rb in Ek; injection Ek as <-; split; reflexivity|].
    rewrite (O k N1 N2) in Ek. discriminate. }
  assert (S : savable (fun _ => false) d [B "::G::::#BOOTID"; B "::G::::#DBGEN"]).
  { split; [split; [|split]|split].
    - repeat constructor; cbn [In]; intros H; decompose [or] H; (discriminate || contradiction).
    - intros k Hk. destruct (recs d k) as [r|] eqn:Ek; [|contradiction]. destruct (K k r Ek) as [(-> & _)|(-> & _)]; [right; left|left]; reflexivity.
    - repeat constructor; try (left; reflexivity); vm_compute; intros H; decompose [or] H; (discriminate || contradiction).
    - intros k r Ek. destruct (K k r Ek) as [(_ & ->)|(_ & ->)].
      all: split; [repeat split; try reflexivity; vm_compute; intros H; decompose [or] H; (discriminate || contradiction)|right; eexists; split; [|reflexivity]; discriminate].
    - reflexivity. }
  destruct (save (fun _ => false) d [B "::G::::#BOOTID"; B "::G::::#DBGEN"]) as [[file|]|] eqn:Es.
  2,3: injection E as <-; vm_compute in Es; discriminate.
  destruct (start (Some file) (B "id")) as [(d', g)|] eqn:Es2.
  2: injection E as <-; vm_compute in Es; injection Es as <-; vm_compute in Es2; discriminate.
  assert (g = 2%N /\ (N.of_nat (length file) <= 67108864)%N) as (-> & Sz).
  { injection E as <-. vm_compute in Es. injection Es as <-. split; [|vm_compute; discriminate]. vm_compute in Es2. injection Es2 as _ <-. reflexivity. }
  exists d'. eapply Life_again; try eassumption; [|reflexivity]. eapply Life_first. eassumption.
Qed.

(* C66 does not hold as stated: the number is kept in 16 bits, so the start after number 65535 has number 0, *)
Theorem generation_wraps_refuted : forall vec d keys b, savable vec d keys -> vec (B "::G::::#DBGEN") = false ->
  recs d (B "::G::::#DBGEN") = Some (Rec 0 245 65535 (B "/") [le 2 65535]) ->
  exists file, save vec d keys = Ok (Some file)
    /\ ((N.of_nat (length file) <= 67108864)%N -> exists d', start (Some file) b = Ok (d', 0%N)).
Proof. exact wraps_lemma. Qed.
Print Assumptions generation_wraps_refuted.
Definition gen_last : db := Db (fun k => if key_eqb k (B "::G::::#DBGEN") then Some (Rec 0 245 65535 (B "/") [le 2 65535]) else None) (fun _ => false).
Example generation_wraps_case :
  match save (fun _ => false) gen_last [B "::G::::#DBGEN"] with
  | Ok (Some file) => match start (Some file) (B "id") with Ok (_, g) => g = 0%N | UB => False end
  | _ => False
  end.
Proof. vm_compute. reflexivity. Qed.
(* a database over 64 MiB is saved but not loaded: everything is lost and the number is 1 again, *)
Theorem generation_big_refuted : forall l b, Forall good_record l -> (67108864 < N.of_nat (length (write_message l)) < 2 ^ 32)%N ->
  exists d, start (Some (write_message l)) b = Ok (d, 1%N)
    /\ forall k, k <> B "::G::::#DBGEN" -> k <> B "::G::::#BOOTID" -> recs d k = None.
Proof. exact too_big_lemma. Qed.
Print Assumptions generation_big_refuted.
(* and so it is with a file cut off before its first number: the failure to load is not noticed. *)
Theorem generation_cut_refuted : forall f b, length f < 4 -> exists d, start (Some f) b = Ok (d, 1%N).
Proof. exact cut_lemma. Qed.
Print Assumptions generation_cut_refuted.
