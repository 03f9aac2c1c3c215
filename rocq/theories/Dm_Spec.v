From Verif Require Import Base UbrKey_Model UbrDb_Model UbrPerm_Spec UbrScan_Model UbrScan_Spec Lvm_Spec Dm_Model.
Local Open Scope nat_scope.

(* Numbers as texts: digits of a base, the last digit counts one *)
Definition digit (base : N) (c : byte) (v : N) : Prop :=
  (v < base)%N /\ (nth_error (B "0123456789abcdef") (N.to_nat v) = Some c \/ nth_error (B "0123456789ABCDEF") (N.to_nat v) = Some c).
Inductive numeral (base : N) : bytes -> N -> Prop :=
| Num_one : forall c v, digit base c v -> numeral base [c] v
| Num_more : forall s n c v, numeral base s n -> digit base c v -> numeral base (s ++ [c]) (base * n + v).
(* Decimal, octal after 0, hexadecimal after 0x *)
Definition number_text (s : bytes) (n : N) : Prop :=
  (numeral 10 s n /\ hd_error s <> Some "0"%char) \/ (numeral 8 s n /\ hd_error s = Some "0"%char)
  \/ (exists t, (s = B "0x" ++ t \/ s = B "0X" ++ t) /\ numeral 16 t n).
Definition blank (c : byte) : Prop := In c (map ascii_of_nat [32; 9; 10; 11; 12; 13]).
(* What is read as the number n: also after blanks and a sign, a minus counts modulo 2^64 *)
Definition cookie_text (s : bytes) (n : N) : Prop :=
  exists sp sign t v, s = sp ++ sign ++ t /\ Forall blank sp /\ number_text t v /\ (v < 2 ^ 64)%N
    /\ (((sign = [] \/ sign = B "+") /\ n = v) \/ (sign = B "-" /\ n = (2 ^ 64 - v) mod 2 ^ 64)%N).
Definition cookie_value (n : N) : Prop := (0 < n < 2 ^ 32)%N.

Definition DM : bytes := B "/type/dm".
Definition LVM : bytes := B "/type/dm/dm_sub/lvm".
(* The records of an event and of a device *)
Definition cookie_var (u : ucmd) : bytes := udev_var (Lvm_Spec.number u) (B "DM_COOKIE").
Definition suspended_var (u : ucmd) : bytes := udev_var (Lvm_Spec.number u) (B ".DM_SUSPENDED").
Definition base_key (u : ucmd) : bytes := devmod_key (uid u) DM (B "cookie_base").
Definition flags_key (u : ucmd) : bytes := devmod_key (uid u) DM (B "cookie_flags").
(* A record with one item that w may read *)
Definition reads (d : db) (w k x : bytes) : Prop :=
  exists o, recs d k = Some o /\ ~ In NUL (r_owner o) /\ may_read o w /\ r_data o = [x].
Definition reads_text (d : db) (w k x : bytes) : Prop := ~ In NUL x /\ reads d w k (x ++ [NUL]).
Definition lacks (d : db) (k : bytes) : Prop := forall o, recs d k = Some o -> r_data o = [].
Definition two_bytes (n : N) : bytes := [ascii_of_N (n mod 256); ascii_of_N (n / 256)].

(* The cookie n is stored: its lower half for this command, its upper half with the record before in the archive *)
Definition cookie_stored (u : ucmd) (n : N) (d d' : db) : Prop :=
  recs d' (base_key u) = Some (Rec (u_seq u) 1 (u_gen u) DM [two_bytes (n mod 65536)])
  /\ recs d' (flags_key u) = Some (Rec (u_seq u) 75 (u_gen u) DM [two_bytes (n / 65536)])
  /\ (forall o, recs d (flags_key u) = Some o -> recs d' ("~"%char :: flags_key u) = Some o)
  /\ (forall x, ~ In x [base_key u; flags_key u; "~"%char :: flags_key u] -> recs d' x = recs d x).
Definition no_cookie_stored (u : ucmd) (d d' : db) : Prop :=
  recs d' (flags_key u) = Some (Rec (u_seq u) 74 (u_gen u) DM [])
  /\ (forall o, recs d (flags_key u) = Some o -> recs d' ("~"%char :: flags_key u) = Some o)
  /\ (forall x, ~ In x [flags_key u; "~"%char :: flags_key u] -> recs d' x = recs d x).

(* The semaphore of a cookie: the number 0x0D4D, then the lower half of the cookie *)
Definition sem_key (n : N) : N := (3405 * 65536 + n mod 65536)%N.

(* What an event tells: the cookie, if any, and the text in .DM_SUSPENDED *)
Definition event (d : db) (u : ucmd) (cookie : option N) (susp : bytes) : Prop :=
  match cookie with
  | Some n => exists t, reads_text d DM (cookie_var u) t /\ cookie_text t n /\ cookie_value n
  | None => lacks d (cookie_var u)
  end /\ reads_text d DM (suspended_var u) susp.
(* The state before a scan_pre: the records of the module are its own to write, the state of the device is known or not loaded yet *)
Definition prepared (s : scan) (u : ucmd) : Prop :=
  writable (sc_db s) DM (base_key u) /\ writable (sc_db s) DM (flags_key u)
  /\ (forall o, recs (sc_db s) (ready_key (uid u)) = Some o -> ~ In NUL (r_owner o) /\ may_write o DM /\ may_write o LVM /\ state_record o)
  /\ may_set_ready (sc_phase s) /\ (sc_ready s = RDY_UNDEFINED \/ knows_ready s u) /\ (stored (sc_db s) (ready_key (uid u)) <= 8)%N.
(* The state a cookie asks for: the flag that disables other rules is bit 19 of the cookie, the one that disables disk rules bit 18 *)
Definition by_cookie (n : N) : N := if N.testbit n 19 then RDY_PRIVATE else if N.testbit n 18 then RDY_FLAT else RDY_PUBLIC.
(* The state after an event of the device in the state old; None: the event is refused *)
Definition dm_next (old : N) (cookie : option N) (synth : bool) (a : action) (susp : bytes) : option N :=
  let cookied := match cookie with Some _ => true | None => false end in
  if (old =? RDY_UNDEFINED)%N || (cookied && (synth || negb (is_change a))) then None
  else if key_eqb susp (B "1") then Some RDY_UNAVAILABLE
  else if ((old =? RDY_REMOVED) || (old =? RDY_UNINITIALIZED))%N then Some old
  else match cookie with
       | Some n => Some (by_cookie n)
       | None => Some (if (old =? RDY_UNPROCESSED)%N then if synth then RDY_PUBLIC else if is_add a then RDY_UNCONFIGURED else old else old)
       end.
(* What LVM makes of it: bit 24 of the cookie marks a volume that is not initialised *)
Definition lvm_next (n : N) (cookie : option N) : N :=
  let mark := match cookie with Some c => N.testbit c 24 | None => false end in
  if mark then if ((n =? RDY_PUBLIC) || (n =? RDY_PRIVATE))%N then RDY_UNINITIALIZED else n
  else if (n =? RDY_UNINITIALIZED)%N then RDY_PUBLIC else n.
Definition scan_pre_keys (u : ucmd) : list bytes :=
  [base_key u; flags_key u; "~"%char :: flags_key u; ready_key (uid u); "~"%char :: ready_key (uid u)].

(* The variables for udev rules: bit i of the flags gives the i-th name *)
Definition rules_vars : list bytes :=
  [B "DM_UDEV_DISABLE_DM_RULES_FLAG"; B "DM_UDEV_DISABLE_SUBSYSTEM_RULES_FLAG"; B "DM_UDEV_DISABLE_DISK_RULES_FLAG";
   B "DM_UDEV_DISABLE_OTHER_RULES_FLAG"; B "DM_UDEV_LOW_PRIORITY_FLAG"; B "DM_UDEV_DISABLE_LIBRARY_FALLBACK_FLAG";
   B "DM_UDEV_PRIMARY_SOURCE_FLAG"; B "DM_UDEV_FLAG7"; B "DM_SUBSYSTEM_UDEV_FLAG0"; B "DM_SUBSYSTEM_UDEV_FLAG1";
   B "DM_SUBSYSTEM_UDEV_FLAG2"; B "DM_SUBSYSTEM_UDEV_FLAG3"; B "DM_SUBSYSTEM_UDEV_FLAG4"; B "DM_SUBSYSTEM_UDEV_FLAG5";
   B "DM_SUBSYSTEM_UDEV_FLAG6"; B "DM_SUBSYSTEM_UDEV_FLAG7"].
Definition vsn_var : bytes := B "DM_UDEV_RULES_VSN".
(* Bits set because of the state of the device *)
Definition forced (ready : N) (i : nat) : Prop :=
  (i = 3 /\ In ready [RDY_UNINITIALIZED; RDY_PRIVATE; RDY_UNAVAILABLE]) \/ (i = 2 /\ In ready [RDY_UNINITIALIZED; RDY_PRIVATE; RDY_UNAVAILABLE; RDY_FLAT]).
Definition var_record (u : ucmd) (f : N) (v : option bytes) : rec := Rec (u_seq u) f (u_gen u) DM (match v with Some v => [v ++ [NUL]] | None => [] end).
(* The variables in the database *)
Definition vars_stored (u : ucmd) (flags ready : N) (d' : db) : Prop :=
  forall i v, nth_error rules_vars i = Some v ->
    ((N.testbit flags (N.of_nat i) = true \/ forced ready i) -> recs d' (udev_var (Lvm_Spec.number u) v) = Some (var_record u 102 (Some (B "1"))))
    /\ (N.testbit flags (N.of_nat i) = false -> ~ forced ready i -> recs d' (udev_var (Lvm_Spec.number u) v) = Some (var_record u 102 None)).
Definition vars_writable (d : db) (u : ucmd) : Prop := forall v, In v (vsn_var :: rules_vars) -> writable d DM (udev_var (Lvm_Spec.number u) v).

(* The record of the submodule of a device *)
Definition sub_key (u : ucmd) : bytes := B ":USR:D:" ++ uid u ++ B ":::dm_sub".
