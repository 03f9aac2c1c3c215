From Verif Require Import Base UbrKey_Model UbrDb_Model UbrScan_Model UbrScan_Spec Lvm_Spec Lvm_Model Dm_Model Dm_Spec UbrExec_Model UbrExec_Spec DmProps_Model DmCookie_Model.
Local Open Scope nat_scope.

(* The records of the cookie, and functions that leave them alone *)
Definition cookie_keys (u : ucmd) : list bytes := [cookie_var u; base_key u; flags_key u].
Definition leaves (u : ucmd) (s s' : scan) : Prop := forall k, In k (cookie_keys u) -> recs (sc_db s') k = recs (sc_db s) k.
Definition harmless (u : ucmd) (f : scan -> outcome (scan * Z)) : Prop := forall s s' r, f s = Ok (s', r) -> leaves u s s'.
(* The event carries the cookie n *)
Definition carries (d : db) (u : ucmd) (n : N) : Prop :=
  (exists t, reads_text d DM (cookie_var u) t /\ cookie_text t n /\ cookie_value n) /\ writable d DM (base_key u) /\ writable d DM (flags_key u).
(* A device-mapper device: its module is dm, which is no block module; the other modules, the submodules and the core leave the records of
   the cookie alone *)
Definition dm_device (e : env) (dm : nat) (q : dm_par) : Prop :=
  keeps_phase e /\ e_ucmd e = dp_ucmd q /\ (forall p, e_fn e dm p = Some (dm_fn q p)) /\ ~ In dm (e_blocks e)
  /\ (forall s s' o, e_prepare e s = Ok (s', o) -> leaves (dp_ucmd q) s s' /\ (o = None \/ o = Some (Some dm)))
  /\ harmless (dp_ucmd q) (e_deps e)
  /\ (forall m p f, m <> dm -> e_fn e m p = Some f -> harmless (dp_ucmd q) f)
  /\ (forall p, harmless (dp_ucmd q) (dp_sub q p)) /\ (forall m p, In m (dp_subs q) -> harmless (dp_ucmd q) (sm_run m p)).
(* The calls of the function that lowers the semaphore *)
Definition phase_of (c : call) : nat := snd (fst c).
Definition lowering (dm : nat) (c : call) : bool := (module c =? dm) && (phase_of c =? B_ACTION_CURRENT).
(* In the calls cs it was called once, in the state s that the block modules left, and lowered the semaphores l *)
Definition lowered_once (e : env) (dm : nat) (q : dm_par) (cs : list call) (l : list nat) : Prop :=
  exists s0 bs s s' r, did e B_ACTION_CURRENT s0 bs s /\ (forall c, In c bs -> In c cs)
    /\ dm_step q B_ACTION_CURRENT s = Ok (s', r, l)
    /\ filter (lowering dm) cs = [(dm, B_ACTION_CURRENT, r)].
Definition never_lowered (dm : nat) (cs : list call) : Prop := filter (lowering dm) cs = [].
