From Verif Require Import Base Log_Model.
Local Open Scope nat_scope.

(* LINE_MAX of limits.h *)
Definition LINE : nat := 2048.
(* The prefixes of a line *)
Definition chain (l : list bytes) : bytes := List.concat (map (fun p => "<"%char :: p ++ [">"%char; " "%char]) l).
(* C strings *)
Definition plain (s : bytes) : Prop := ~ In NUL s.
Definition plain_req (q : req) : Prop := (forall p, In p (q_pfx q) -> plain p) /\ plain (q_text q).
(* The most detailed level for a verbosity *)
Definition threshold (v : Z) : Z := match v with 0 => 5 | 1 => 6 | _ => 7 end%Z.
(* What the stack of a call holds is 2048 bytes *)
Definition stack_ok (n : env) : Prop := length (n_msg n) = LINE.
(* The lines for a text of a request: all of it when it fits, else its beginning and a note *)
Definition line_cases (l : list bytes) (text : bytes) (whole : bytes -> out) (long truncated : out) (o : list out) : Prop :=
  (length (chain l) + length text < LINE /\ text <> [] /\ o = [whole (chain l ++ text)])
  \/ (length (chain l) < LINE /\ text = [] /\ o = [])
  \/ (length (chain l) < LINE <= length (chain l) + length text /\ (Z.of_nat (length text) < 2147483648)%Z
       /\ o = [truncated; whole (firstn (LINE - 1) (chain l ++ text))])
  \/ (length (chain l) < LINE /\ (2147483648 <= Z.of_nat (length text))%Z /\ o = [truncated])
  \/ (LINE <= length (chain l) /\ exists rest, o = long :: rest).
(* The target and the verbosity in force after a history: the first initialisation counts until the target is changed to none *)
Definition force (s : target * Z) (c : lcall) : target * Z :=
  match c with
  | LInit t v | LInitHandle t v => match fst s with TNone => (t, v) | _ => s end
  | LChange t => (t, snd s)
  | LClose | LPrefix _ | LOutput _ _ _ => s
  end.
Definition in_force (l : list lcall) : target * Z := fold_left force l (TNone, 0%Z).
Definition call_ok (c : lcall) : Prop := match c with LOutput n _ q => stack_ok n /\ plain_req q | LPrefix (Some p) => plain p | _ => True end.
(* The prefix of the handle after a history: the last one set *)
Definition named (l : list lcall) : list bytes :=
  fold_left (fun s c => match c with LPrefix (Some p) => [p] | LPrefix None => [] | _ => s end) l [].
(* Whether a handle is asked for: set by one initialisation, taken back by the other while no target is open *)
Definition asked (s : bool * target) (c : lcall) : bool * target :=
  match c with
  | LInit t _ => match snd s with TNone => (false, t) | _ => s end
  | LInitHandle t _ => (true, match snd s with TNone => t | x => x end)
  | LChange t => (fst s, t)
  | LClose | LPrefix _ | LOutput _ _ _ => s
  end.
Definition handle_needed (l : list lcall) : bool := fst (fold_left asked l (false, TNone)).
(* No initialisation asked for more than verbosity 2 *)
Definition quiet (c : lcall) : Prop := match c with LInit _ v | LInitHandle _ v => (0 <= v <= 2)%Z | _ => True end.
(* The end of a line for an error number *)
Definition errno_part (strerror : Z -> bytes) (e : Z) : bytes := match e with 0%Z => [] | _ => B ": " ++ strerror (Z.abs e) ++ B "." end.
