(* What splitting a string means. *)
From Verif Require Import Base Tok_Model.
Local Open Scope nat_scope.

(* The words of a string, character by character: [cur] is the word under construction, [q] the quote that is open. *)
Fixpoint words (delims quotes : bytes) (cur : option bytes) (q : option byte) (s : bytes) : option (list bytes) :=
  match s, q with
  | [], Some _ => None
  | [], None => Some (match cur with Some w => [w] | None => [] end)
  | c :: t, Some e => if Ascii.eqb c e then words delims quotes cur None t
                      else words delims quotes (Some (or_empty cur ++ [c])) q t
  | c :: t, None =>
      if existsb (Ascii.eqb c) delims then
        option_map (fun ws => match cur with Some w => w :: ws | None => ws end) (words delims quotes None None t)
      else if existsb (Ascii.eqb c) quotes then words delims quotes (Some (or_empty cur)) (Some c) t
      else words delims quotes (Some (or_empty cur ++ [c])) None t
  end.
Definition words_of (delims quotes s : option bytes) : option (list bytes) :=
  match s with None => Some [] | Some s => words (or_empty delims) (or_empty quotes) None None s end.

(* Reading a vector back as C does: strings up to their NUL, pointers up to NULL. *)
Fixpoint cstr (s : bytes) : outcome bytes :=
  match s with
  | [] => UB
  | c :: t => if Ascii.eqb c NUL then Ok [] else let! r := cstr t in Ok (c :: r)
  end.
Fixpoint read_strv (l : list slot) (area : bytes) : outcome (list bytes) :=
  match l with
  | Null :: _ => Ok []
  | At o :: t => let! w := cstr (skipn o area) in let! ws := read_strv t area in Ok (w :: ws)
  | _ => UB
  end.
Definition no_nul (s : option bytes) : Prop := ~ In NUL (or_empty s).
Definition stored (ws : list bytes) : bytes := flat_map (fun w => w ++ [NUL]) ws.
(* The memory a vector needs: 8 bytes for each pointer and the terminating NULL, and the strings with their NULs. *)
Definition needs (ws : list bytes) : nat := 8 * S (length ws) + length (stored ws).
