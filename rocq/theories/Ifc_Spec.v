From Verif Require Import Base UtilStr_Spec UbrRec_Model UbrMsg_Spec UbrPerm_Spec Ifc_Model.
Local Open Scope nat_scope.

(* The names of the commands 0 to 10 *)
Definition named (c : nat) (s : string) : Prop :=
  match c with
  | 0 => s = "undefined" | 1 => s = "unknown" | 2 => s = "active" | 3 => s = "checkpoint" | 4 => s = "reply" | 5 => s = "scan"
  | 6 => s = "version" | 7 => s = "dbdump" | 8 => s = "dbstats" | 9 => s = "resources" | 10 => s = "devices" | _ => False
  end%string.

(* An environment of KEY=VALUE strings; the first string of a key is the one getenv finds *)
Definition environment (fs : list (bytes * bytes)) : list bytes := map field_text fs.
Fixpoint first_value (fs : list (bytes * bytes)) (k : bytes) : option bytes :=
  match fs with
  | [] => None
  | (k', v) :: fs => if list_eq_dec ascii_dec k' k then Some v else first_value fs k
  end.
(* a decimal number of the environment *)
Definition env_number (fs : list (bytes * bytes)) (k : bytes) (n : N) : Prop :=
  exists s, first_value fs k = Some s /\ s <> [] /\ (forall c, In c s -> digit c) /\ dec_value s = n.
Definition header_of (msg : bytes) (status : N) (prot cmd : nat) (flags : N) (body : bytes) : Prop :=
  msg = le 8 status ++ ascii_of_nat prot :: ascii_of_nat cmd :: le 2 flags ++ body.
(* SID_IFC_CMD_FL_UNMODIFIED_DATA *)
Definition raw (q : ifc_req) : Prop := N.testbit (q_flags q) 2 = true.
