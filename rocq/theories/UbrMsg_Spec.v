From Verif Require Import Base UtilStr_Model UtilStr_Spec UbrKey_Model UbrDb_Model UbrRec_Model UbrMsg_Model UbrPerm_Spec.
Local Open Scope nat_scope.

(* A request: protocol, command number and body after the header's status and flags *)
Definition request (msg : bytes) (prot cmd : nat) (body : bytes) : Prop :=
  exists st fl, length st = 8 /\ length fl = 2 /\ prot < 256 /\ cmd < 256
    /\ msg = st ++ ascii_of_nat prot :: ascii_of_nat cmd :: fl ++ body.
(* The commands only root may run, and those that act on a device *)
Definition root_command (c : nat) : Prop := In c [3; 5; 7; 8; 9; 10].
Definition device_command (c : nat) : Prop := c = 3 \/ c = 5.
Definition has_action (c : nat) : Prop := In c [5; 6; 8; 9; 10].
Definition command_names : list string :=
  [""; "c-unknown"; "c-active"; "c-checkpoint"; "c-reply"; "c-scan"; "c-version"; "c-dbdump"; "c-dbstats"; "c-resource"; "c-devices"]%string.

(* The environment: the device number, then KEY=VALUE strings *)
Definition field_text (f : bytes * bytes) : bytes := fst f ++ "="%char :: snd f.
Definition env_text (fs : list (bytes * bytes)) : bytes := List.concat (map (fun f => field_text f ++ [NUL]) fs).
Definition no_eq (s : bytes) : Prop := ~ In "="%char s.
(* a '/' after the first character *)
Definition has_dir (v : bytes) : Prop := exists a b, a <> [] /\ v = a ++ "/"%char :: b.
Definition good_field (f : bytes * bytes) : Prop :=
  no_eq (fst f) /\ no_nul (fst f) /\ no_nul (snd f) /\ snd f <> [] /\ (fst f = B "DEVPATH" -> has_dir (snd f)).
(* a string that is no KEY=VALUE, or has no value *)
Definition bad_string (s : bytes) : Prop := no_nul s /\ (no_eq s \/ exists k, no_eq k /\ s = k ++ B "=").

Fixpoint last_value (fs : list (bytes * bytes)) (k : bytes) : option bytes :=
  match fs with
  | [] => None
  | (k', v) :: fs => match last_value fs k with Some v => Some v | None => if list_eq_dec ascii_dec k' k then Some v else None end
  end.
(* The key of a device's udev property *)
Definition property_key (num k : bytes) : bytes := B "::U:" ++ num ++ B ":::" ++ k.
Definition data_of (r : option rec) : option (list bytes) := option_map r_data r.
(* The strings fs and nothing else are stored *)
Definition imported (d d' : db) (num : bytes) (fs : list (bytes * bytes)) : Prop :=
  (forall k v, last_value fs k = Some v -> exists r, recs d' (property_key num k) = Some r /\ r_data r = [v ++ [NUL]] /\ r_owner r = B "/"
     /\ (forall b, In b [1; 2; 5; 6; 7; 8; 9; 10]%N -> N.testbit (r_flags r) b = true))
  /\ (forall x, (forall k v, last_value fs k = Some v -> x <> property_key num k) -> recs d' x = recs d x).
(* The part of s after its last '/' *)
Definition base_name (s b : bytes) : Prop := no_slash b /\ exists a, s = a ++ "/"%char :: b.
(* What the strings say of the device *)
Definition number_from (o : option bytes) (n : N) : Prop :=
  match o with
  | None => n = 0%N
  | Some s => s <> [] -> (forall c, In c s -> digit c) -> (dec_value s < 2 ^ 64)%N -> n = dec_value s
  end.
Definition device_from (fs : list (bytes * bytes)) (u : udev) : Prop :=
  v_action u = last_value fs (B "ACTION") /\ v_path u = last_value fs (B "DEVPATH") /\ v_synth u = last_value fs (B "SYNTH_UUID")
  /\ (forall p, last_value fs (B "DEVPATH") = Some p -> exists b, base_name p b /\ v_name u = Some b)
  /\ (v_part u = true <-> exists t, last_value fs (B "DEVTYPE") = Some t /\ map lower t = B "partition")
  /\ number_from (last_value fs (B "SEQNUM")) (v_seqnum u) /\ number_from (last_value fs (B "DISKSEQ")) (v_diskseq u)
  /\ number_from (last_value fs (B "PARTN")) (v_partn u).
(* The device's number: 12 low bits of the major and 8 low bits of the minor number stand lowest (makedev of glibc) *)
Definition makedev (major minor : N) : N := (minor mod 256 + 256 * (major mod 4096) + 2 ^ 20 * (minor / 256) + 2 ^ 44 * (major / 4096))%N.
(* the device's disk sequence id *)
Definition dsq_text (u : udev) (s : bytes) : Prop :=
  exists a b, decimal (Z.of_N (v_diskseq u)) a /\ decimal (Z.of_N (v_partn u)) b /\ s = if v_part u then a ++ B "-part" ++ b else a.
Definition num_text (major minor : N) (s : bytes) : Prop :=
  exists a b, decimal (Z.of_N major) a /\ decimal (Z.of_N minor) b /\ s = a ++ B "_" ++ b.
