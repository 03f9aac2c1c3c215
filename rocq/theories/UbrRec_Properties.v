From Verif Require Import Base UbrDb_Model UbrRec_Model UbrRec_Spec UbrRec_Proofs.
Local Open Scope nat_scope.
Local Notation concat := List.concat (only parsing).

(* C69. A record built from a sequence number, flags, a generation, an owner and values yields exactly these when it is
   split again, both in the vector form and after merging into one block (the values are then one after the other). *)
Theorem record_kept : forall seq flags gen owner data, good_header seq flags gen owner ->
  exists h, header_prep seq flags gen owner = Ok h
    /\ (let v := data_prep h data in
        vvalue_seqnum v = Ok seq /\ vvalue_flags v = Ok flags /\ vvalue_gennum v = Ok gen /\ vvalue_owner v = Ok owner
        /\ vvalue_data v = Ok data)
    /\ exists v, vvalue_of (Scalar (concat (data_prep h data))) = Ok v
        /\ vvalue_seqnum v = Ok seq /\ vvalue_flags v = Ok flags /\ vvalue_gennum v = Ok gen /\ vvalue_owner v = Ok owner
        /\ vvalue_data v = Ok [concat data].
Proof. exact record_lemma. Qed.
Print Assumptions record_kept.
Example record_kept_case :
  good_header 7 (FL_SYNC_P + FL_ALIGN) 3 (B "/type/dm")
  /\ match header_prep 7 (FL_SYNC_P + FL_ALIGN) 3 (B "/type/dm") with
     | Ok h => length (concat (data_prep h [B "ab"; B "c"])) = 35
               /\ vvalue_of (Scalar (concat (data_prep h [B "ab"; B "c"])))
                  = Ok [le 8 7; le 8 7; le 2 3; B "/type/dm" ++ [NUL]; repeat NUL 5; B "abc"]
     | UB => False
     end.
Proof. split; [|vm_compute; tauto]. repeat split; try reflexivity. cbn. intros H. decompose [or] H; (discriminate || contradiction). Qed.

(* C69. The offset used to find the value in the block is where the value starts; with the alignment flag it is a multiple of
   the pointer size, and no more than a pointer's size is added for that. *)
Theorem value_offset : forall seq flags gen owner data h, good_header seq flags gen owner -> header_prep seq flags gen owner = Ok h ->
  exists off, svalue_ext_data_offset (concat (data_prep h data)) = Ok off
    /\ skipn (18 + N.to_nat off) (concat (data_prep h data)) = concat data
    /\ (has flags FL_ALIGN = true -> ((18 + off) mod 8 = 0)%N)
    /\ (N.of_nat (length owner) < off <= N.of_nat (length owner) + 8)%N.
Proof. exact offset_ok. Qed.
Print Assumptions value_offset.
Example value_offset_case :
  match header_prep 7 FL_ALIGN 3 (B "/block/x") with
  | Ok h => svalue_ext_data_offset (concat (data_prep h [B "value"])) = Ok 14%N
  | UB => False
  end.
Proof. vm_compute. reflexivity. Qed.

(* C56. Reading back a message gives exactly the records it was written from: keys, flags and values, in order. *)
Theorem message_round_trip_partial : forall l, Forall good_record l -> (N.of_nat (length (write_message l)) <= 67108864)%N ->
  read_message (write_message l) = Ok (Some l).
Proof. exact message_lemma. Qed.
Print Assumptions message_round_trip_partial.
Definition wire_scalar : wrec := Wrec 0 (B ":ID:U:8_0:::#X") (Scalar (le 8 1 ++ le 8 4 ++ le 2 1 ++ B "/" ++ [NUL] ++ B "v" ++ [NUL])).
Definition wire_vector : wrec := Wrec 1 (B "+:GRP:M:/:::g:#GMB") (Vector [le 8 1; le 8 4; le 2 1; B "/" ++ [NUL]; B "a" ++ [NUL]; []]).
Example message_round_trip_case :
  Forall good_record [wire_scalar; wire_vector] /\ length (write_message [wire_scalar; wire_vector]) = 170
  /\ read_message (write_message [wire_scalar; wire_vector]) = Ok (Some [wire_scalar; wire_vector]).
Proof.
  split; [|vm_compute; tauto]. repeat constructor; cbn; try lia.
  all: intros H; decompose [or] H; (discriminate || contradiction).
Qed.

(* C56. Different records are never written the same way. *)
Theorem message_unambiguous : forall a b, Forall good_record a -> Forall good_record b ->
  (N.of_nat (length (write_message a)) <= 67108864)%N -> write_message a = write_message b -> a = b.
Proof. exact message_injective. Qed.
Print Assumptions message_unambiguous.
Example message_unambiguous_case : write_message [wire_scalar] <> write_message [Wrec 0 (B ":ID:U:8_0:::#Y") (w_val wire_scalar)].
Proof. vm_compute. discriminate. Qed.

(* C56. A message above 64 MiB is written without an error and then refused as a whole by the reader. *)
Theorem message_too_big_refuted : forall l, Forall good_record l -> (67108864 < N.of_nat (length (write_message l)) < 2 ^ 32)%N ->
  read_message (write_message l) = Ok None.
Proof. exact too_big. Qed.
Print Assumptions message_too_big_refuted.
Definition big_record : wrec := Wrec 0 (B ":ID:U:8_0:::#X") (Scalar (repeat NUL (N.to_nat 67108864))).
Example message_too_big_case : Forall good_record [big_record] /\ (67108864 < N.of_nat (length (write_message [big_record])) < 2 ^ 32)%N.
Proof.
  split.
  - constructor; [|constructor]. split; [reflexivity|]. split.
    + cbn. intros H. decompose [or] H; (discriminate || contradiction).
    + split; [reflexivity|]. rewrite repeat_length. lia.
  - unfold write_message, write_record, big_record. cbn [map List.concat w_flags w_key w_val].
    rewrite !app_length, !le_length, repeat_length. cbn [length]. change (2 ^ 32)%N with 4294967296%N. unfold B; cbn [list_ascii_of_string length]. lia.
Qed.
