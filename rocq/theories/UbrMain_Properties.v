(* C123 and C124: the main process passes uevents and clients to workers. *)
From Verif Require Import Base ResEv_Model WrkLife_Model UbrMain_Model UbrMain_Spec UbrMain_Proofs.
Local Open Scope nat_scope.

(* C123 *)
(* While every uevent carries the session id of a worker that is there when it comes, and can be sent, each gives exactly one message, to
   that worker, in the order of the uevents, whatever clients and workers do between. *)
Theorem uevents_reach_workers l : all_good started l -> uevents (mrun started l) = sessions l.
Proof. exact (uevent_theorem l). Qed.
Print Assumptions uevents_reach_workers.
(* After one uevent that cannot be received or sent, has no session id or that of no worker, no uevent reaches any worker any more: whatever
   happened before, whatever comes after. *)
Theorem uevents_after_bad_one_refuted l recv session r :
  uevent_bad (mrun started l) recv session r -> forall l', uevents (mrun started (l ++ AUevent recv session r :: l')) = uevents (mrun started l).
Proof. exact (uevent_refuted l recv session r). Qed.
Print Assumptions uevents_after_bad_one_refuted.
Definition um_hist : list mact :=
  [AClient (B "w1") true true 0; AClient (B "w2") true true 0; AUevent true (Some (B "w2")) 0; AYield (B "w2"); AUevent true (Some (B "w2")) 0; AGone (B "w2"); AUevent true (Some (B "w1")) 0].
Example uevents_ex1 : all_good started um_hist.
Proof.
  repeat split; try reflexivity; (eexists; split; [reflexivity|split; [discriminate|]]); eexists; vm_compute.
  - right. left. reflexivity.
  - right. left. reflexivity.
  - left. reflexivity.
Qed.
Example uevents_ex2 : uevents (mrun started um_hist) = [B "w2"; B "w2"; B "w1"]. Proof. reflexivity. Qed.
(* the worker w2 has ended: its uevent stops those of w1 *)
Example uevents_ex3 : uevents (mrun started (um_hist ++ [AUevent true (Some (B "w2")) 0; AUevent true (Some (B "w1")) 0])) = [B "w2"; B "w2"; B "w1"].
Proof. reflexivity. Qed.
Example uevents_ex4 : uevent_bad (mrun started um_hist) true (Some (B "w2")) 0.
Proof. right. right. left. eexists. split; [reflexivity|]. intros (s & [H|[]]). discriminate H. Qed.
(* without it, the same uevent of w1 arrives *)
Example uevents_ex5 : uevents (mrun started (um_hist ++ [AUevent true (Some (B "w1")) 0])) = [B "w2"; B "w2"; B "w1"; B "w1"]. Proof. reflexivity. Qed.

(* C124 *)
(* While workers can be made, connections accepted and sent, each client is passed to exactly one worker, made for it, in the order of the
   clients, whatever uevents and workers do between.  A worker is never used twice. *)
Theorem clients_reach_new_workers l : Forall client_good l -> clients (mrun started l) = uuids l.
Proof. exact (client_theorem l). Qed.
Print Assumptions clients_reach_new_workers.
(* After one client for whom no worker can be made, or who cannot be accepted or passed on, no client is ever served again. *)
Theorem clients_after_failure_refuted l uuid made accepted r :
  made = false \/ accepted = false \/ (r < 0)%Z -> forall l', clients (mrun started (l ++ AClient uuid made accepted r :: l')) = clients (mrun started l).
Proof. exact (client_refuted l uuid made accepted r). Qed.
Print Assumptions clients_after_failure_refuted.
(* The worker made for a client who cannot be accepted stays, without work. *)
Theorem clients_no_spare_worker_refuted l uuid r : Forall client_good l -> In (uuid, NEW) (m_workers (mrun started (l ++ [AClient uuid true false r]))).
Proof. exact (client_left l uuid r). Qed.
Print Assumptions clients_no_spare_worker_refuted.
Example clients_ex1 : Forall client_good um_hist. Proof. repeat constructor. Qed.
Example clients_ex2 : clients (mrun started um_hist) = [B "w1"; B "w2"]. Proof. reflexivity. Qed.
Example clients_ex3 : clients (mrun started (um_hist ++ [AClient (B "w3") true false 0; AClient (B "w4") true true 0])) = [B "w1"; B "w2"]. Proof. reflexivity. Qed.
Example clients_ex4 : clients (mrun started (um_hist ++ [AClient (B "w4") true true 0])) = [B "w1"; B "w2"; B "w4"]. Proof. reflexivity. Qed.
Example clients_ex5 : m_workers (mrun started (um_hist ++ [AClient (B "w3") true false 0])) = [(B "w1", ASSIGNED); (B "w3", NEW)]. Proof. reflexivity. Qed.
