From Verif Require Import Base BaseUtil_Model Daemon_Model.

(* Options which do not end the program *)
Definition plain (o : opt) : bool := match o with O_foreground | O_journal | O_verbose => true | _ => false end.
Definition is_v (o : opt) : bool := match o with O_verbose => true | _ => false end.
(* The number of an event *)
Definition event_made (e : event) : bool := match e with E_top_made => true | _ => false end.
Definition event_destroyed (e : event) : bool := match e with E_top_destroyed => true | _ => false end.
Definition count {A} (f : A -> bool) (l : list A) : nat := length (filter f l).
(* The process goes on as a daemon: the child of both forks *)
Definition becomes_daemon (s : answers) : Prop := s_fork1 s = 0%Z /\ s_fork2 s = 0%Z /\ s_files s = true.
(* The end was as it should: by a signal, in the daemon or in a worker *)
Definition ended_well (s : answers) : Prop :=
  (0 <= s_loop s)%Z \/ (s_loop s = (- ECHILD)%Z /\ s_control s = true /\ (0 <= s_worker s)%Z).
(* The signals which end the daemon, and those before the first of them *)
Definition ends (n : N) : bool := (n =? 15)%N || (n =? 2)%N.
Fixpoint before_end (l : list N) : list N := match l with [] => [] | n :: l => if ends n then [] else n :: before_end l end.
(* The process gets to the point where the top resource is made *)
Definition goes_on (l : list opt) (s : answers) : Prop := In O_foreground l \/ (becomes_daemon s /\ s_setsid s <> 0%Z).
