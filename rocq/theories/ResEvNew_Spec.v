From Verif Require Import Base ResEv_Model ResEvNew_Model.
Local Open Scope nat_scope.

(* Resources come after their parents *)
Definition grown (t : tree) : Prop := forall r p b, nth_error t r = Some (Some p, b) -> p < r.
(* The event loop of a resource: its own or that of the nearest resource above *)
Inductive nearest (t : tree) : nat -> nat -> Prop :=
| Near_own : forall r p, nth_error t r = Some (p, true) -> nearest t r r
| Near_up : forall r p l, nth_error t r = Some (Some p, false) -> nearest t p l -> nearest t r l.
Definition nothing (sigs : list nat) : st := St [] [] 0 [] sigs.
(* Signals and timers have functions of their own *)
Definition plain_kind (k : kind) : Prop := k <> KSignal /\ k <> KTime.
Definition fits (a : call) : Prop := match a with CPlain _ _ k _ _ => plain_kind k | _ => True end.
(* Reached by calls *)
Definition reached (t : tree) (s : st) : Prop := grown t /\ exists sigs acts, Forall fits acts /\ steps t (nothing sigs) acts = Ok s.
(* sd-event sources and event sources belong to each other, one to one, in the loop of the resource *)
Definition matched (t : tree) (s : st) : Prop :=
  (forall l sd, In (l, sd) (s_sd s) <-> exists r x, In (r, x) (s_srcs s) /\ x_sd x = sd /\ nearest t r l)
  /\ NoDup (map snd (s_sd s)) /\ NoDup (map (fun y => x_sd (snd y)) (s_srcs s)).
(* One new event source at the end, its sd-event source in the loop of the resource; nothing else changes but signals *)
Definition one_more (t : tree) (s s' : st) (r : nat) (k : kind) (name : bytes) (max time : N) : Prop :=
  exists l sd n, nearest t r l /\ (n = name \/ n = B "unnamed") /\ s_srcs s' = s_srcs s ++ [(r, Src sd k (Some n) (create max) time)] /\ s_sd s' = (l, sd) :: s_sd s.
Definition untouched (s s' : st) : Prop := s_srcs s' = s_srcs s /\ s_sd s' = s_sd s /\ s_mask s' = s_mask s.
(* How often each kind of source fires and the time of a timer *)
Definition times (k : kind) : N := match k with KIo | KSignal | KChild | KPost => 18446744073709551615 | _ => 1 end.
Definition deadline (now : N) (d : pos) (usec : N) : N := match d with ABS => usec | REL => (now + usec)%N end.
(* Calls of the library that succeed *)
Definition lucky (c : lib) : Prop := (0 <= c_add c /\ 0 <= c_prio c /\ 0 <= c_now c /\ 0 <= c_mask c /\ 0 <= c_sigfd c)%Z /\ c_mem c = true.
