From Verif Require Import Base UbrCmd_Model.
Local Open Scope nat_scope.

(* Numbers of events in what was observed *)
Definition is_exported (e : event) : bool := match e with Exported => true | _ => false end.
Definition is_merged (e : event) : bool := match e with Merged _ => true | _ => false end.
Definition is_responded (e : event) : bool := match e with Responded => true | _ => false end.
Definition is_finished (e : event) : bool := match e with Finished => true | _ => false end.
Definition is_failed (e : event) : bool := match e with Failed => true | _ => false end.
Definition number_of (p : event -> bool) (t : list event) : nat := length (filter p t).
(* The stages whose exec function was called, in order *)
Definition stages_run (t : list event) : list nat := flat_map (fun e => match e with Ran n => [n] | _ => [] end) t.

(* A run from the start of a command *)
Definition run (g : reg) (l : list action) : outcome sys := let! c := init_cmd g in sys_steps g (Sys c []) l.
Definition trace (s : sys) : list event := c_trace (s_cmd s).
(* uevents are seen only when the client has its response *)
Definition udev_after_response (g : reg) (l : list action) : Prop :=
  forall l1 l2 s, l = l1 ++ A_udev :: l2 -> run g l1 = Ok s -> In Responded (trace s).
(* no message arrives after the end *)
Definition nothing_after_end (g : reg) (l : list action) : Prop :=
  forall l1 l2 s, l = l1 ++ A_message :: l2 -> run g l1 = Ok s -> In Finished (trace s) -> s_in s = [].
