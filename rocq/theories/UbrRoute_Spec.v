From Verif Require Import Base UbrCmd_Model UbrCmd_Spec UbrRoute_Model.
Local Open Scope nat_scope.

(* The requests of command n on the way to the main process *)
Definition asked (n : nat) (l : list (nat * message)) : list to_main_msg :=
  flat_map (fun x => if fst x =? n then [if (header_cmd (m_data (snd x)) =? CMD_SYNC)%N then M_Sync else M_Resources] else []) l.
(* What is on the way to command e: answers to its requests and, for a scan, notes of uevents *)
Definition told (e : entry) (l : list (option nat * message)) : list to_worker_msg :=
  flat_map (fun x => match fst x with
                     | Some n => if n =? e_num e then [if (header_cmd (m_data (snd x)) =? CMD_SYNC)%N then W_Sync else W_Resources] else []
                     | None => if name_eqb (e_name e) (B "c-scan") && (header_cat (m_data (snd x)) =? CAT_SYSTEM)%N then [W_Umonitor] else []
                     end) l.
(* The commands of a worker and what there is of one of them *)
Definition commands (s : wsys) : list entry := entries (w_kids s).
Definition view (e : entry) (s : wsys) : sys := Sys (with_sent (e_cmd e) (asked (e_num e) (w_up s))) (told e (w_down s)).
(* No two commands of the worker have the same name *)
Definition distinct (s : wsys) : Prop := NoDup (map e_name (commands s)).
