From Verif Require Import Base UbrCmd_Model CmdMem_Model.
Local Open Scope nat_scope.

(* The commands of src/resource/ubr.c:5710-5736 *)
Definition commands : list lreg := [lreg_scan; lreg_checkpoint; lreg_plain; lreg_print; lreg_dbdump; lreg_resources; lreg_self].
(* A command which was made, and what happened since *)
Definition history (lg : lreg) (bad : istep -> bool) (fields : list field) (path : bool) (l : list laction) (s : sys) (m : mem) : Prop :=
  exists c m0, init_command lg bad fields path = Ok (m0, Some c) /\ lsteps lg (Sys c [], m0) l = Ok (s, m).
(* The whole life of a command: what exists after it *)
Definition life (lg : lreg) (bad : istep -> bool) (fields : list field) (path : bool) (l : list laction) : outcome (list piece) :=
  let! (m, made) := init_command lg bad fields path in
  match made with
  | None => Ok (live m)
  | Some c => let! (_, m) := lsteps lg (Sys c [], m) l in let! m := destroy_command lg m in Ok (live m)
  end.
(* No udev property is written in the second stage *)
Definition udev_in_first (lg : lreg) (bad : istep -> bool) (fields : list field) (path : bool) (l : list laction) : Prop :=
  forall l1 a e l2 s m, l = l1 ++ L_handler a e :: l2 -> history lg bad fields path l1 s m -> e_udev e = true -> c_stage (s_cmd s) <= 1.
(* The steps before the path is copied, and those after it *)
Definition before_path : list istep := [I_ctx; I_ini; I_prot; I_reg; I_prn; I_res; I_add; I_common; I_path].
Definition late_failure (bad : istep -> bool) : Prop := (forall x, In x before_path -> bad x = false) /\ (bad I_handler = true \/ bad I_sched = true).
(* What may exist after the end of a command: the name of a udev property that could not be set; the iterator and the buffer of
   records to remove of a scan; the mapping of a resources command *)
Definition left_by (lg : lreg) (fields : list field) (p : piece) : Prop :=
  (fst p = W_key /\ In F_not_set fields) \/ (lg = lreg_scan /\ (fst p = W_cmd \/ fst p = W_uns)) \/ (lg = lreg_resources /\ fst p = W_cmd).
