(* Event sources of resources, src/resource/res.c: creation, timers, destruction.  sd-event and the system are given by what their calls
   return; the resources and their event loops stay as they are. *)
From Verif Require Import Base ResEv_Model.
Local Open Scope nat_scope.

(* Of the resources, src/resource/res.c:38-71, the parent and whether there is an event loop; a resource is its place in the list *)
Definition tree := list (option nat * bool).
Definition parent (t : tree) (r : nat) : option nat := match nth_error t r with Some (p, _) => p | None => None end.
Definition has_loop (t : tree) (r : nat) : bool := match nth_error t r with Some (_, b) => b | None => false end.
(* _get_res_with_ev_loop, src/resource/res.c:523-537; n: at least the number of resources above *)
Fixpoint up (t : tree) (n r : nat) : option nat :=
  if has_loop t r then Some r else match n, parent t r with S n, Some p => up t n p | _, _ => None end.
Definition with_loop (t : tree) (r : nat) : option nat := up t (length t) r.

(* Of struct sid_res_ev_src, src/resource/res.c:103-113: the sd-event source, the type, the name (None: never set), the counters and, for
   timers, the time in the sd-event source *)
Inductive kind := KIo | KSignal | KChild | KTime | KDeferred | KPost | KExit.
Record src := Src { x_sd : nat; x_kind : kind; x_name : option bytes; x_ev : ev; x_time : N }.
(* The event sources with their resources, in the order of creation; the sd-event sources of each loop that still have a reference;
   the number of the next; the loops with a signalfd; the blocked signals *)
Record st := St { s_srcs : list (nat * src); s_sd : list (nat * nat); s_next : nat; s_sigfd : list nat; s_mask : list nat }.
(* What the calls of one creation return: sd_event_add_x, sd_event_source_set_priority, malloc, the description set and read back,
   sd_event_now with its time, sigprocmask and signalfd (an errno or success) *)
Record lib := Lib { c_add : Z; c_prio : Z; c_mem : bool; c_desc : bool; c_now : Z; c_time : N; c_mask : Z; c_sigfd : Z }.

(* _create_event_source, src/resource/res.c:115-173 *)
Definition create_source (s : st) (c : lib) (r : nat) (k : kind) (name : option bytes) (sd : nat) (max time : N) : st * Z :=
  if c_mem c then
    let name := match name with Some n => Some (if c_desc c then n else B "unnamed") | None => None end in
    (St (s_srcs s ++ [(r, Src sd k name (create max) time)]) (s_sd s) (s_next s) (s_sigfd s) (s_mask s), 0%Z)
  else (s, (-12)%Z).
(* sd_event_add_x gives a source *)
Definition add_sd (s : st) (l : nat) : st := St (s_srcs s) ((l, s_next s) :: s_sd s) (S (s_next s)) (s_sigfd s) (s_mask s).
(* sd_event_source_unref of the last reference *)
Definition unref (s : st) (sd : nat) : st := St (s_srcs s) (filter (fun x => negb (snd x =? sd)) (s_sd s)) (s_next s) (s_sigfd s) (s_mask s).
(* What is the same in all functions of creation once there is an event loop, e.g. src/resource/res.c:577-591: the state and what is
   returned; a source is handed out only with 0 *)
Definition create_in (s : st) (c : lib) (l r : nat) (k : kind) (prio : Z) (name : option bytes) (max time : N) : st * Z :=
  if (c_add c <? 0)%Z then (s, c_add c)
  else
    let sd := s_next s in
    let s := add_sd s l in
    if negb (prio =? 0)%Z && (c_prio c <? 0)%Z then (unref s sd, c_prio c)
    else let '(s, e) := create_source s c r k name sd max time in
         if (e <? 0)%Z then (unref s sd, e) else (s, 0%Z).
(* sid_res_ev_create_io, _child, _deferred, _post, _exit, src/resource/res.c:561-592, 698-735, 867-897, 899-929, 931-961 *)
Definition max_of (k : kind) : N := match k with KIo | KSignal | KChild | KPost => UNLIMITED | KTime | KDeferred | KExit => 1%N end.
Definition create_plain (t : tree) (s : st) (c : lib) (r : nat) (k : kind) (prio : Z) (name : option bytes) : st * Z :=
  match with_loop t r with
  | None => (s, (-123)%Z)
  | Some l => create_in s c l r k prio name (max_of k) 0
  end.
(* sid_res_ev_create_signal, src/resource/res.c:624-681; SIG_SETMASK of the old mask does not fail *)
Definition in_list (l : nat) (ls : list nat) : bool := existsb (Nat.eqb l) ls.
Definition set_mask (s : st) (m : list nat) : st := St (s_srcs s) (s_sd s) (s_next s) (s_sigfd s) m.
Definition create_signal (t : tree) (s : st) (c : lib) (r : nat) (mask : list nat) (prio : Z) (name : option bytes) : st * Z :=
  match with_loop t r with
  | None => (s, (-123)%Z)
  | Some l =>
    if (c_mask c <? 0)%Z then (s, c_mask c)
    else
      let old := s_mask s in
      let s := set_mask s (mask ++ s_mask s) in
      if in_list l (s_sigfd s) then (set_mask s old, (-98)%Z)
      else if (c_sigfd c <? 0)%Z then (set_mask s old, c_sigfd c)
      else
        let s := St (s_srcs s) (s_sd s) (s_next s) (l :: s_sigfd s) (s_mask s) in
        let '(s, e) := create_in s c l r KSignal prio name UNLIMITED 0 in
        if (e <? 0)%Z then (set_mask s old, e) else (s, 0%Z)
  end.
(* sid_res_ev_create_time, src/resource/res.c:752-816.  The result of sd_event_now is compared before it is kept (l. 785) *)
Definition U64MAX : N := 18446744073709551615.
Definition create_time (t : tree) (s : st) (c : lib) (r : nat) (d : pos) (usec : N) (prio : Z) (name : option bytes) : st * Z :=
  match with_loop t r with
  | None => (s, (-123)%Z)
  | Some l =>
    match d with
    | ABS => create_in s c l r KTime prio name 1 usec
    | REL =>
      if (c_now c <? 0)%Z then (s, 1%Z)
      else if (U64MAX - c_time c <=? usec)%N then (s, (-75)%Z)
      else create_in s c l r KTime prio name 1 (c_time c + usec)%N
    end
  end.
(* sid_res_ev_rearm_time, src/resource/res.c:818-850, of a source of resource r; set: what sd_event_source_set_time returns, clock: what
   sd_event_source_get_time_clock returns *)
Definition rearm (t : tree) (r : nat) (x : src) (d : pos) (usec : N) (set clock now : Z) (time : N) : src * Z :=
  let go at_ := (Src (x_sd x) (x_kind x) (x_name x) (set_counter (x_ev x) REL 1) at_, 0%Z) in
  match d with
  | ABS => if (set <? 0)%Z then (x, 1%Z) else go usec
  | REL =>
    match with_loop t r with
    | None => (x, (-123)%Z)
    | Some _ =>
      if (clock <? 0)%Z then (x, clock) else if (now <? 0)%Z then (x, now)
      else if (U64MAX - time <=? usec)%N then (x, (-75)%Z)
      else if negb (set =? 0)%Z then (x, set) else go (time + usec)%N
    end
  end.
(* sid_res_ev_destroy with _destroy_event_source, src/resource/res.c:175-182 and 1015-1020, of the source with sd-event source sd: the name
   is printed *)
Definition destroy (s : st) (sd : nat) : outcome st :=
  match find (fun x => x_sd (snd x) =? sd) (s_srcs s) with
  | None => UB
  | Some (_, x) =>
    match x_name x with
    | None => UB
    | Some _ => let s := unref s sd in
                Ok (St (filter (fun y => negb (x_sd (snd y) =? sd)) (s_srcs s)) (s_sd s) (s_next s) (s_sigfd s) (s_mask s))
    end
  end.

(* Calls one after the other; a name is always given *)
Inductive call :=
| CPlain (c : lib) (r : nat) (k : kind) (prio : Z) (name : bytes) | CSignal (c : lib) (r : nat) (mask : list nat) (prio : Z) (name : bytes)
| CTime (c : lib) (r : nat) (d : pos) (usec : N) (prio : Z) (name : bytes) | CDestroy (n : nat).
(* CDestroy n: the n-th of the sources there are *)
Definition step (t : tree) (s : st) (a : call) : outcome st :=
  match a with
  | CPlain c r k prio name => Ok (fst (create_plain t s c r k prio (Some name)))
  | CSignal c r mask prio name => Ok (fst (create_signal t s c r mask prio (Some name)))
  | CTime c r d usec prio name => Ok (fst (create_time t s c r d usec prio (Some name)))
  | CDestroy n => match nth_error (s_srcs s) n with Some (_, x) => destroy s (x_sd x) | None => Ok s end
  end.
Fixpoint steps (t : tree) (s : st) (l : list call) : outcome st :=
  match l with [] => Ok s | a :: l => let! s := step t s a in steps t s l end.
