(* The counters of event sources, src/resource/res.c.  Of sd-event (a library) only what an event source does with its own state is
   modelled: a source that is off is not dispatched; one that is set to fire once is turned off before its callback is called; one whose
   callback returns a negative number is turned off (systemd, source_dispatch). *)
From Verif Require Import Base.
Local Open Scope N_scope.

(* SID_RES_UNLIMITED_EV_COUNT, src/include/resource/res.h:57 *)
Definition UNLIMITED : N := 18446744073709551615.
(* uint64_t arithmetic *)
Definition add64 (a b : N) : N := (a + b) mod 18446744073709551616.
(* SD_EVENT_OFF, SD_EVENT_ONESHOT, SD_EVENT_ON *)
Inductive enabled := Off | Oneshot | On.
(* Of struct sid_res_ev_src, src/resource/res.c:103-113, the counters, and the state of the sd-event source *)
Record ev := Ev { e_fired : N; e_max : N; e_on : enabled }.
(* _create_event_source, src/resource/res.c:115-173; the kinds of sources give UNLIMITED (l. 584, 670, 727, 921) or 1 (l. 808, 889, 953) *)
Definition create (max : N) : ev := Ev 0 max (if max =? 0 then Off else if max =? 1 then Oneshot else On).
(* _handle_event_counter, src/resource/res.c:539-544 *)
Definition count (e : ev) : ev :=
  let fired := add64 (e_fired e) 1 in
  Ev fired (e_max e) (if negb (e_max e =? UNLIMITED) && (fired =? e_max e) then Off else e_on e).
(* sid_res_ev_set_counter, src/resource/res.c:963-992 *)
Inductive pos := ABS | REL.
Definition set_counter (e : ev) (d : pos) (n : N) : ev :=
  if n =? UNLIMITED then Ev (e_fired e) n On
  else
    let max := match d with
      | ABS => if n <? e_fired e then e_fired e else n
      | REL => let m := add64 (e_fired e) n in if (m =? UNLIMITED) || (m <? e_fired e) then UNLIMITED - 1 else m
      end in
    Ev (e_fired e) max (if e_fired e =? max then Off else if add64 (e_fired e) 1 =? max then Oneshot else On).
(* One dispatch: sd-event and the handlers, src/resource/res.c:546-559, 594-621, 683-696, 737-750, 852-865.  The handler of the user makes
   the given calls of sid_res_ev_set_counter for its own source and returns z; without a handler (or if the signal cannot be read) there are
   no calls and z is 0 (or 1) and not looked at.  Sources for child processes test z otherwise (l. 690). *)
Definition failed (child : bool) (ran : bool) (z : Z) : bool := ran && if child then (0 <? z)%Z else (z <? 0)%Z.
Definition dispatch (child : bool) (e : ev) (ran : bool) (calls : list (pos * N)) (z : Z) : ev :=
  let e := match e_on e with Oneshot => Ev (e_fired e) (e_max e) Off | _ => e end in
  let e := count e in
  let e := fold_left (fun e c => set_counter e (fst c) (snd c)) calls e in
  let e := if failed child ran z then Ev (e_fired e) (e_fired e) (e_on e) else e in
  if (z <? 0)%Z then Ev (e_fired e) (e_max e) Off else e.
