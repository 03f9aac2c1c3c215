From Verif Require Import Base UbrRec_Model UbrPerm_Spec Ifc_Model Ifc_Spec Usid_Model Usid_Spec Fmt_Model Json_Spec Sidctl_Model.
Local Open Scope nat_scope.

(* The request of a command in a format: number 0, protocol 2, no data *)
Definition format_number (f : fmt) : N := match f with TABLE => 0 | JSON => 1 | ENV => 2 end.
Definition request (cmd : nat) (f : fmt) (msg : bytes) : Prop := header_of msg 0 2 cmd (format_number f) [].
(* A reply with data, in the message itself or in mapped memory behind 4 bytes of its size *)
Definition replied (s : N) (body : bytes) (g : got) : Prop :=
  (exists p, reply s p body g)
  \/ exists p msg b size, header_of msg s p 4 0 b /\ p < 256 /\ (s < 2 ^ 64)%N /\ length size = 4 /\ g = inl (Rsl msg (Some (size ++ body))).
(* No answer, or an answer that says failure *)
Definition failed (g : got) : Prop := (exists r, g = inr r) \/ exists s body, N.odd s = true /\ replied s body g.
(* The commands that print what the daemon sends *)
Definition shows_data (cmd : nat) (name : string) : Prop := named cmd name /\ 7 <= cmd.

(* The names of the formats, in letters of either case *)
Definition letter_of (c x : byte) : Prop := x = c \/ (byteN c = byteN x + 32 /\ 65 <= byteN x <= 90)%N.
Definition format_name (f : fmt) : bytes := match f with TABLE => B "table" | JSON => B "json" | ENV => B "env" end.
Definition names_format (s : bytes) (f : fmt) : Prop := Forall2 letter_of (format_name f) s.
(* Options that set the format to g if it was f before *)
Inductive sets_format : fmt -> list opt -> fmt -> Prop :=
| Sf_none : forall f, sets_format f [] f
| Sf_verbose : forall f l g, sets_format f l g -> sets_format f (OVerbose :: l) g
| Sf_format : forall f s h l g, names_format s h -> sets_format h l g -> sets_format f (OFormat s :: l) g.

(* The own version as an object *)
Definition own_version (v : vsn) : json :=
  JObj [(B "SIDCTL_PROTOCOL", JInt (Z.of_N (v_protocol v))); (B "SIDCTL_MAJOR", JInt (Z.of_N (v_major v)));
        (B "SIDCTL_MINOR", JInt (Z.of_N (v_minor v))); (B "SIDCTL_RELEASE", JInt (Z.of_N (v_release v)))].
Definition both_versions (v : vsn) (d : json) : json := JObj [(B "SIDCTL_VERSION", own_version v); (B "SID_VERSION", d)].
(* A line KEY=number or KEY: number *)
Definition line (sep key : bytes) (n : N) : bytes := key ++ sep ++ print_u n ++ [LF].
Definition own_lines (sep : bytes) (v : vsn) : bytes :=
  line sep (B "SIDCTL_PROTOCOL") (v_protocol v) ++ line sep (B "SIDCTL_MAJOR") (v_major v) ++ line sep (B "SIDCTL_MINOR") (v_minor v) ++ line sep (B "SIDCTL_RELEASE") (v_release v).
Definition daemon_lines (sep : bytes) (p a b c : N) : bytes :=
  line sep (B "SID_IFC_PROTOCOL") p ++ line sep (B "SID_MAJOR") a ++ line sep (B "SID_MINOR") b ++ line sep (B "SID_RELEASE") c.
