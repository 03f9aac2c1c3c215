From Verif Require Import Base UbrDb_Model UbrDelta_Model UbrScan_Model UbrScan_Spec UbrExec_Model.
Local Open Scope nat_scope.

Definition module (c : call) : nat := fst (fst c).
Definition result (c : call) : Z := snd c.
(* The modules with a function for a phase *)
Definition serves (e : env) (p m : nat) : bool := match e_fn e m p with Some _ => true | None => false end.
(* Functions of modules do not change the phase of the command: there is no such call for modules *)
Definition keeps_phase (e : env) : Prop :=
  (forall m p f s s' r, e_fn e m p = Some f -> f s = Ok (s', r) -> sc_phase s' = sc_phase s) /\ (forall s s' o, e_prepare e s = Ok (s', o) -> sc_phase s' = sc_phase s).
Definition defined (e : env) : Prop := forall m p f s, e_fn e m p = Some f -> f s <> UB.

(* The calls cs, one after the other, in phase p, take s to s' *)
Inductive did (e : env) (p : nat) : scan -> list call -> scan -> Prop :=
| did_nothing s : did e p s [] s
| did_call s m f s1 r cs s2 : e_fn e m p = Some f -> sc_phase s = p -> f s = Ok (s1, r) -> did e p s1 cs s2 -> did e p s ((m, p, r) :: cs) s2.

(* The modules l, in order, up to and including the first one that fails *)
Definition up_to_failure (l : list nat) (cs : list call) : Prop :=
  exists rest, l = map module cs ++ rest
    /\ (forall pre c post, cs = pre ++ c :: post -> (result c < 0)%Z -> post = [])
    /\ (rest <> [] -> exists pre c, cs = pre ++ [c] /\ (result c < 0)%Z).

(* Phases that undo: there the type module comes first and the block modules follow in reverse *)
Definition exits (p : nat) : bool := (p =? A_EXIT) || (p =? REMOVE_EXIT) || (p =? B_EXIT).
Definition opt_list (o : option nat) : list nat := match o with Some m => [m] | None => [] end.
(* The type modules a phase is for: that of the device, that of the layer above it, or both *)
Definition type_mods (p : nat) (x : xst) : list nat :=
  if (p =? A_SCAN_NEXT) || (p =? A_SCAN_POST_NEXT) || (p =? B_ACTION_NEXT) then opt_list (x_next x)
  else if p =? PHASE_ERROR then opt_list (x_current x) ++ opt_list (x_next x) else opt_list (x_current x).

(* The phases which depend on the ready state, and the states they need *)
Definition suits (p : nat) (ready : N) : Prop :=
  (In p [A_SCAN_CURRENT; A_SCAN_POST_CURRENT] -> In ready [RDY_PRIVATE; RDY_FLAT; RDY_PUBLIC])
  /\ (In p [A_SCAN_NEXT; A_SCAN_POST_NEXT] -> ready = RDY_PUBLIC).
(* A phase p ran from x to x' with result r: bs are the calls of block modules, ts those of type modules *)
Definition ran_phase (e : env) (p : nat) (x x' : xst) (r : Z) : Prop :=
  exists bs ts s0 s1,
    let cs := if exits p then ts ++ bs else bs ++ ts in
    x_calls x' = x_calls x ++ cs
    (* the calls; the modules *)
    /\ did e p s0 cs s1
    /\ up_to_failure (filter (serves e p) (if exits p then rev (e_blocks e) else e_blocks e)) bs
    /\ map module ts = filter (serves e p) (type_mods p x')
    (* what comes before them *)
    /\ suits p (sc_ready s0)
    /\ (In p [A_INIT; REMOVE_INIT] -> exists cur, e_prepare e (Scan (sc_db (x_scan x)) p (sc_ready (x_scan x)) (sc_reserved (x_scan x))) = Ok (s0, Some cur) /\ x_current x' = cur)
    /\ (~ In p [A_INIT; REMOVE_INIT] -> x_current x' = x_current x
          /\ (sc_db s0 = sc_db (x_scan x)
              \/ p = A_SCAN_CURRENT /\ x_current x = None /\ sc_ready s0 = RDY_PUBLIC /\ stored (sc_db s0) (ready_key (dev_id (e_ucmd e))) = RDY_PUBLIC))
    /\ (p <> A_SCAN_NEXT -> x_next x' = x_next x)
    /\ (p = A_SCAN_NEXT -> exists sb, did e p s0 bs sb /\ x_next x' = e_next e sb)
    (* what comes after them, and the result *)
    /\ (p <> A_EXIT -> p <> REMOVE_CURRENT -> s1 = x_scan x')
    /\ (p <> REMOVE_CURRENT -> (r = -1 <-> exists c, In c ts /\ result c < 0)%Z /\ (r = -1 \/ r = 0)%Z)
    /\ (p = REMOVE_CURRENT -> (exists c, In c ts /\ result c < 0)%Z /\ r = (-1)%Z /\ s1 = x_scan x'
                              \/ (~ exists c, In c ts /\ result c < 0)%Z /\ e_deps e s1 = Ok (x_scan x', r)).
(* Nothing was called *)
Definition no_calls (x x' : xst) : Prop := x_calls x' = x_calls x.
(* The command reads the state of its device, or knows it *)
Definition reads_ready (s : scan) (u : ucmd) : Prop :=
  (sc_ready s = RDY_UNDEFINED \/ knows_ready s u) /\ (forall o, UbrDb_Model.recs (sc_db s) (ready_key (dev_id u)) = Some o -> state_record o).

(* Phases run one after the other, with their results *)
Inductive runs (e : env) : list nat -> xst -> list Z -> xst -> Prop :=
| runs_end x : runs e [] x [] x
| runs_phase p ps x x1 r rs x2 : exec_phase e p x = Ok (x1, r) -> runs e ps x1 rs x2 -> runs e (p :: ps) x (r :: rs) x2.

(* A stage with the phases ps: all of them passed; or the first or the last one failed; or another one failed, and the error phase and the
   last phase followed *)
Definition stage_ran (e : env) (ps : list nat) (x x' : xst) (c : Z) : Prop :=
  (exists rs, runs e ps x rs x' /\ Forall passed rs /\ c = 0%Z)
  \/ (exists pre p post rs r, ps = pre ++ p :: post /\ Forall passed rs /\ ~ passed r /\ (pre = [] \/ post = []) /\ c = (-1)%Z /\ runs e (pre ++ [p]) x (rs ++ [r]) x')
  \/ (exists pre p post rs r r2 r3, ps = pre ++ p :: post /\ Forall passed rs /\ ~ passed r /\ pre <> [] /\ post <> [] /\ c = 0%Z
        /\ runs e (pre ++ [p; PHASE_ERROR; last ps 0]) x (rs ++ [r; r2; r3]) x').
(* The ready state n of the device suits a phase, or the core makes it so: a device nobody is responsible for becomes public *)
Definition goes_ahead (p : nat) (n : N) (current : option nat) : Prop := suits p n \/ p = A_SCAN_CURRENT /\ n = RDY_UNPROCESSED /\ current = None.
