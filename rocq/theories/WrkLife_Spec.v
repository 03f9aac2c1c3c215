(* What the life cycle properties say. *)
From Verif Require Import Base Wrk_Model WrkLife_Model.

(* How far a worker has come: new, at work, on its way out, gone. *)
Definition rank (st : wstate) : nat :=
  match st with NEW => 0 | IDLE | ASSIGNED => 1 | EXITING | TIMED_OUT => 2 | EXITED => 3 end.

(* A channel leads to the proxy. *)
Definition to_proxy (w : wtype) : Prop := match w with WIRE_PIPE_TO_PRX | WIRE_SOCKET => True | _ => False end.

(* Nobody takes a reference to a proxy. *)
Definition no_refs (ops : list wop) : Prop := forall j, ~ In (WRef j) ops.
