From Coq Require Import Permutation.
From Verif Require Import Base FdPass_Model FdPass_Spec FdPass_Proofs.
Local Open Scope nat_scope.

(* C136. Over any messages and ends of connections, no descriptor is closed twice or while another has its number, and the open ones are those
   of the living connections, those there before and one for each message that came with a descriptor its receiver does not take. *)
Theorem passed_to_worker : forall pick l, unused pick -> forall s t, holds s t ->
  exists s' lost, worker_run pick s l = Ok s' /\ holds s' (lost ++ t) /\ length lost = strays l.
Proof. exact worker_lemma. Qed.
Print Assumptions passed_to_worker.
Theorem passed_to_worker_clean : forall pick l s t, unused pick -> holds s t -> strays l = 0 -> exists s', worker_run pick s l = Ok s' /\ holds s' t.
Proof. exact clean_lemma. Qed.
Print Assumptions passed_to_worker_clean.
Theorem passed_to_main : forall pick l, unused pick -> forall t, NoDup t ->
  exists lost, proxy_run pick t l = Ok (lost ++ t) /\ NoDup (lost ++ t) /\ length lost = main_strays l.
Proof. exact main_lemma. Qed.
Print Assumptions passed_to_main.
(* A client's descriptor belongs to its connection if that can be made, else it is closed *)
Theorem passed_client : forall pick s m a, unused pick -> g_cat m = CAT_CLIENT -> HEADER <= g_size m -> g_ext m = E_fd -> n_res a = true ->
  worker_step pick s (W_recv m a) = Ok (if n_conn a && n_io a && n_cbuf a then Proc (pick (opn s) :: opn s) (pick (opn s) :: con s) else s).
Proof. exact client_lemma. Qed.
Print Assumptions passed_client.
(* C136, as stated, is refuted: the descriptor of any other message stays open whatever happens later, so does the one of a client whose
   connection resource cannot be made *)
Theorem passed_stray_refuted : forall pick m a s t, unused pick -> holds s t -> has_fd m = true -> for_worker m a = false ->
  forall l, exists s', worker_run pick s (W_recv m a :: l) = Ok s' /\ In (pick (opn s)) (opn s') /\ ~ In (pick (opn s)) (con s').
Proof. exact stray_lemma. Qed.
Print Assumptions passed_stray_refuted.

(* The number above all in use *)
Definition fp_pick (t : list nat) : nat := S (list_max t).
Definition fp_a (res buf : bool) : answers := Ans true 0 (Some 100%N) true 0 0 res true true buf.
Definition fp_client : msg := Msg 16 CAT_CLIENT CMD_OTHER E_fd.
Definition fp_answer : msg := Msg 20 CAT_SYSTEM CMD_RESOURCES E_fd.
Definition fp_ack : msg := Msg 20 CAT_SYSTEM CMD_SYNC E_fd.
Example fp_meets : unused fp_pick /\ holds (Proc [2; 1; 0] []) [0; 1; 2].
Proof.
  split; [|split; [repeat constructor; cbn; intuition discriminate|cbn [opn con app]; exact (Permutation_rev [2; 1; 0])]].
  intros t I. unfold fp_pick in I. assert (F : Forall (fun k => k <= list_max t) t) by (apply list_max_le; lia). rewrite Forall_forall in F. specialize (F _ I). lia.
Qed.
(* Two clients, one of which cannot be served, the answer of the main process, and the end of the first *)
Example fp_run : worker_run fp_pick (Proc [2; 1; 0] []) [W_recv fp_client (fp_a true true); W_recv fp_client (fp_a true false); W_recv fp_answer (fp_a true true)] = Ok (Proc [3; 2; 1; 0] [3])
  /\ worker_run fp_pick (Proc [2; 1; 0] []) [W_recv fp_client (fp_a true true); W_recv fp_answer (fp_a true true); W_end 0] = Ok (Proc [2; 1; 0] []).
Proof. vm_compute. split; reflexivity. Qed.
Example fp_run_stray : worker_run fp_pick (Proc [2; 1; 0] []) [W_recv fp_ack (fp_a true true); W_recv fp_client (fp_a false true)] = Ok (Proc [4; 3; 2; 1; 0] [])
  /\ strays [W_recv fp_ack (fp_a true true); W_recv fp_client (fp_a false true)] = 2 /\ for_worker fp_ack (fp_a true true) = false.
Proof. vm_compute. repeat split; reflexivity. Qed.
Example fp_run_main : proxy_run fp_pick [2; 1; 0] [(fp_ack, fp_a true true); (Msg 20 CAT_SYSTEM CMD_RESOURCES E_none, fp_a true true)] = Ok [2; 1; 0]
  /\ main_strays [(fp_ack, fp_a true true)] = 0.
Proof. vm_compute. split; reflexivity. Qed.
