From Verif Require Import Base UbrKey_Model.

(* Strings joined by ":" *)
Fixpoint joined (l : list bytes) : bytes :=
  match l with [] => [] | [s] => s | s :: l => s ++ ":"%char :: joined l end.
Definition no_colon (s : bytes) : Prop := ~ In ":"%char s.
Definition opt_no_colon (s : option bytes) : Prop := match s with Some s => no_colon s | None => True end.
(* what an absent string stands for *)
Definition str (s : option bytes) : bytes := match s with Some s => s | None => [] end.

(* The parts of a key, other than the core, do not contain the separator *)
Definition clean (k : key_spec) : Prop :=
  opt_no_colon (ks_dom k) /\ opt_no_colon (ks_ns_part k) /\ opt_no_colon (ks_id_cat k) /\ opt_no_colon (ks_id k).
(* Two specifications name the same record: absent and empty strings are the same *)
Definition same_parts (a b : key_spec) : Prop :=
  ks_op a = ks_op b /\ str (ks_dom a) = str (ks_dom b) /\ ks_ns a = ks_ns b /\ str (ks_ns_part a) = str (ks_ns_part b)
  /\ str (ks_id_cat a) = str (ks_id_cat b) /\ str (ks_id a) = str (ks_id b) /\ str (ks_core a) = str (ks_core b).

Definition op_text (o : kv_op) : bytes := match o with OP_SET => B "" | OP_PLUS => B "+" | OP_MINUS => B "-" end.
Definition ns_text (n : kv_ns) : bytes :=
  match n with NS_UNDEFINED => B "" | NS_UDEV => B "U" | NS_DEVICE => B "D" | NS_MODULE => B "M" | NS_DEVMOD => B "X" | NS_GLOBAL => B "G" end.
(* the parts in their order *)
Definition parts_of (k : key_spec) : list bytes :=
  [op_text (ks_op k); str (ks_dom k); ns_text (ks_ns k); str (ks_ns_part k); str (ks_id_cat k); str (ks_id k); str (ks_core k)].

(* A string is what the parts of s after the first n separators are; used to say which parts a key has *)
Definition has_parts (key : bytes) (l : list bytes) : Prop :=
  key = joined l /\ l <> [] /\ length l <= 7
  /\ (forall i p, nth_error l i = Some p -> i < 6 -> no_colon p).

(* A filter accepts a member key when every part it gives, before the last part of the key, is the part of the key *)
Definition accepts (filter : key_spec) (l : list bytes) : Prop :=
  forall i p q, i < length l - 1 -> nth_error l i = Some p ->
    nth_error [Some (op_text (ks_op filter)); ks_dom filter; Some (ns_text (ks_ns filter)); ks_ns_part filter; ks_id_cat filter;
               ks_id filter; ks_core filter] i = Some (Some q) -> p = q.

(* Keys as the store sees them: the store skips leading white space (kvs.c:489) *)
Definition stored_as (key k : bytes) : Prop := exists w, key = w ++ k /\ (forall c, In c w -> In c [" "%char; "009"%char; "010"%char; "011"%char; "012"%char; "013"%char])
  /\ (forall c t, k = c :: t -> ~ In c [" "%char; "009"%char; "010"%char; "011"%char; "012"%char; "013"%char]).
(* the forms of a system record's key *)
Definition system_key (y : bytes) : Prop := exists s, system_spec s /\
  (y = compose_key s \/ y = skipn 1 (compose_key s) \/ y = with_prefix C_ARCHIVE (compose_key s) \/ y = with_prefix C_SYNC (compose_key s)).

(* The record a module's key name stands for: the device (by number or by id), the module, or neither, by namespace *)
Definition scope (d : devctx) (owner : bytes) (n : kv_ns) : list bytes :=
  match n with
  | NS_UNDEFINED => []
  | NS_UDEV => [str (num_s d)]
  | NS_DEVICE => [str (uid_s d)]
  | NS_MODULE => [owner]
  | NS_DEVMOD => [str (uid_s d); owner]
  | NS_GLOBAL => []
  end.
Definition clean_ctx (d : devctx) (owner : bytes) : Prop := opt_no_colon (num_s d) /\ opt_no_colon (uid_s d) /\ no_colon owner.
Definition good_name (n : kv_ns) (core : bytes) : Prop := n <> NS_UNDEFINED /\ core <> [] /\ hd_error core <> Some "#"%char.
Definition str_list (l : option (list bytes)) : list bytes := match l with Some l => l | None => [] end.
