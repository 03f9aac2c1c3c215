From Coq Require Import Permutation.
From Verif Require Import Base FdPass_Model.
Local Open Scope nat_scope.

(* The kernel never gives a number that is in use *)
Definition unused (pick : list nat -> nat) : Prop := forall t, ~ In (pick t) t.
(* Messages whose descriptor the receiver is made for: answers to the command resources and clients in a worker, buffers to merge in the
   main process *)
Definition for_worker (m : msg) (a : answers) : bool :=
  match g_cat m, g_cmd m with
  | CAT_SYSTEM, CMD_RESOURCES => 16 <=? g_size m
  | CAT_CLIENT, _ => (16 <=? g_size m) && n_res a
  | _, _ => false
  end.
Definition for_main (m : msg) : bool := match g_cat m, g_cmd m with CAT_SYSTEM, CMD_SYNC => 16 <=? g_size m | _, _ => false end.
Definition has_fd (m : msg) : bool := match g_ext m with E_fd => true | _ => false end.
(* How many other messages came with a descriptor *)
Definition stray (p : wop) : nat := match p with W_recv m a => if has_fd m && negb (for_worker m a) then 1 else 0 | W_end _ => 0 end.
Definition strays (l : list wop) : nat := list_sum (map stray l).
Definition main_strays (l : list (msg * answers)) : nat := list_sum (map (fun p => if has_fd (fst p) && negb (for_main (fst p)) then 1 else 0) l).
(* The open descriptors are those of the connections and t, each once *)
Definition holds (s : proc) (t : list nat) : Prop := NoDup (opn s) /\ Permutation (opn s) (con s ++ t).
