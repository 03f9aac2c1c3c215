From Verif Require Import Base UtilStr_Spec UbrRec_Model UbrMsg_Spec UbrPerm_Spec Ifc_Model Ifc_Spec Usid_Model.
Local Open Scope nat_scope.

(* Properties as the daemon sends them and as lines of text *)
Definition as_strings (ps : list bytes) : bytes := List.concat (map (fun p => p ++ [NUL]) ps).
Definition as_lines (ps : list bytes) : bytes := List.concat (map (fun p => p ++ [LF]) ps).
(* A reply (command 4) of status s and protocol p with the data body *)
Definition reply (s : N) (p : nat) (body : bytes) (g : got) : Prop :=
  exists msg, header_of msg s p 4 0 body /\ p < 256 /\ (s < 2 ^ 64)%N /\ g = inl (Rsl msg None).
(* The environment of a uevent: event n of device a:b *)
Definition uevent_env (fs : list (bytes * bytes)) (n a b : N) : Prop :=
  (forall x, In x fs -> no_eq (fst x)) /\ env_number fs (B "SEQNUM") n /\ (n < 2 ^ 64)%N
  /\ env_number fs (B "MAJOR") a /\ env_number fs (B "MINOR") b /\ (a < 2 ^ 20)%N /\ (b < 2 ^ 12)%N.
(* The message of a scan in that environment: its number as status, protocol 2, command 5, format 2 *)
Definition scan_text (fs : list (bytes * bytes)) (n a b : N) (msg : bytes) : Prop := header_of msg n 2 5 2 (le 8 (makedev a b) ++ env_text fs).
Definition says (s : string) : bytes := B "SID_STATUS=" ++ B s ++ [LF].
