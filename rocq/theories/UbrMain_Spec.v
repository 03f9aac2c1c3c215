From Verif Require Import Base ResEv_Model WrkLife_Model UbrMain_Model.
Local Open Scope nat_scope.

Definition uevents (m : main) : list bytes := map fst (filter (fun x => match snd x with NUevent => true | NClient => false end) (m_sent m)).
Definition clients (m : main) : list bytes := map fst (filter (fun x => match snd x with NClient => true | NUevent => false end) (m_sent m)).
Definition has_worker (m : main) (id : bytes) : Prop := exists s, In (id, s) (m_workers m).
(* A uevent that carries the session id of a worker there is, and can be sent *)
Definition uevent_good (m : main) (a : mact) : Prop :=
  match a with AUevent recv session r => recv = true /\ r = 0%Z /\ exists id, session = Some id /\ id <> [] /\ has_worker m id | _ => True end.
Definition client_good (a : mact) : Prop := match a with AClient _ made accepted r => made = true /\ accepted = true /\ r = 0%Z | _ => True end.
(* All uevents of a history are good when they come *)
Fixpoint all_good (m : main) (l : list mact) : Prop := match l with [] => True | a :: l => uevent_good m a /\ all_good (mstep m a) l end.
Definition sessions (l : list mact) : list bytes := flat_map (fun a => match a with AUevent _ (Some id) _ => [id] | _ => [] end) l.
Definition uuids (l : list mact) : list bytes := flat_map (fun a => match a with AClient uuid _ _ _ => [uuid] | _ => [] end) l.
Definition is_uevent (a : mact) : Prop := match a with AUevent _ _ _ => True | _ => False end.
Definition is_client (a : mact) : Prop := match a with AClient _ _ _ _ => True | _ => False end.
(* A uevent that cannot be received or sent, or has no session id, or that of no worker *)
Definition uevent_bad (m : main) (recv : bool) (session : option bytes) (r : Z) : Prop :=
  recv = false \/ session = None \/ (exists id, session = Some id /\ ~ has_worker m id) \/ (r < 0)%Z.
