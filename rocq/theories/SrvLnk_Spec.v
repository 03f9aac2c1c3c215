From Verif Require Import Base List_Model SrvLnk_Model.
Local Open Scope nat_scope.

(* What there is: for each group its name and members in order, for each link its name, type, notifications, flags and data *)
Definition attrs : Type := bytes * nat * N * N * nat.
Definition attrs_of (k : link) : attrs := (k_name k, k_type k, k_notif k, k_flags k, k_data k).
Record world := World { w_grps : loc -> option (bytes * list loc); w_links : loc -> option attrs }.
Definition live (w : world) (x : loc) : Prop := w_grps w x <> None \/ w_links w x <> None.
Definition grouped (w : world) (x g : loc) : Prop := exists n l, w_grps w g = Some (n, l) /\ In x l.
Definition lonely (w : world) (x : loc) : Prop := forall g, ~ grouped w x g.
Definition cloneable (w : world) (x : loc) : bool := match w_links w x with Some (_, _, _, f, _) => N.odd f | None => false end.
(* w' is w but for the group g *)
Definition regroup (w w' : world) (g : loc) (x : option (bytes * list loc)) : Prop :=
  w_grps w' g = x /\ (forall y, y <> g -> w_grps w' y = w_grps w y).
Definition same_links (w w' : world) : Prop := forall y, w_links w' y = w_links w y.
Definition same_grps (w w' : world) : Prop := forall y, w_grps w' y = w_grps w y.
(* Proper calls and what they are to do *)
Inductive lcall : world -> lop -> world -> Prop :=
| L_create w w' a n t no f d : ~ live w a -> same_grps w w' -> w_links w' a = Some (n, t, no, f, d) -> (forall y, y <> a -> w_links w' y = w_links w y) ->
    lcall w (LCreate a n t no f d) w'
| L_destroy w w' a : w_links w a <> None -> lonely w a -> same_grps w w' -> w_links w' a = None -> (forall y, y <> a -> w_links w' y = w_links w y) ->
    lcall w (LDestroy a) w'
| L_destroy_in w w' a g n l1 l2 : w_grps w g = Some (n, l1 ++ a :: l2) -> regroup w w' g (Some (n, l1 ++ l2)) -> w_links w' a = None -> (forall y, y <> a -> w_links w' y = w_links w y) ->
    lcall w (LDestroy a) w'
| G_create w w' g n : ~ live w g -> same_links w w' -> regroup w w' g (Some (n, [])) -> lcall w (GCreate g n) w'
| G_add w w' g a n l : w_grps w g = Some (n, l) -> w_links w a <> None -> lonely w a -> same_links w w' -> regroup w w' g (Some (n, l ++ [a])) -> lcall w (GAdd g a) w'
| G_del w w' g a n l1 l2 : w_grps w g = Some (n, l1 ++ a :: l2) -> same_links w w' -> regroup w w' g (Some (n, l1 ++ l2)) -> lcall w (GDel g a) w'
| G_del_other w w' g a : w_links w a <> None -> ~ grouped w a g -> same_links w w' -> same_grps w w' -> lcall w (GDel g a) w'
| G_destroy w w' g n l : w_grps w g = Some (n, l) -> same_links w w' -> regroup w w' g None -> lcall w (GDestroy g) w'
| G_destroy_with w w' g n l : w_grps w g = Some (n, l) -> (forall y, In y l -> w_links w' y = None) -> (forall y, ~ In y l -> w_links w' y = w_links w y) -> regroup w w' g None ->
    lcall w (GDestroyWith g) w'
| G_clone w w' g c cn n l ps qs : w_grps w g = Some (n, l) -> NoDup (c :: ps ++ qs) -> (forall p, In p (c :: ps ++ qs) -> ~ live w p) ->
    length ps = length (filter (cloneable w) l) -> regroup w w' c (Some (cn, ps)) ->
    Forall2 (fun y p => w_links w' p = w_links w y) (filter (cloneable w) l) ps -> (forall y, ~ In y ps -> w_links w' y = w_links w y) ->
    lcall w (GClone g c cn (ps ++ qs)) w'
| G_clone_fail w w' g c cn n l ps : w_grps w g = Some (n, l) -> NoDup (c :: ps) -> (forall p, In p (c :: ps) -> ~ live w p) ->
    length ps < length (filter (cloneable w) l) -> same_links w w' -> same_grps w w' -> lcall w (GClone g c cn ps) w'
| G_merge_none w w' d c n m l : w_grps w d = Some (n, l) -> w_grps w c = Some (m, []) -> d <> c -> same_links w w' -> regroup w w' c None -> lcall w (GMerge d c) w'.
Inductive lcalls : world -> list lop -> world -> Prop :=
| Ls_none w : lcalls w [] w
| Ls_more w o w' os w'' : lcall w o w' -> lcalls w' os w'' -> lcalls w (o :: os) w''.
Definition no_world : world := World (fun _ => None) (fun _ => None).
Definition no_store : store := Store (fun _ => None) (fun _ => None) (fun _ => None).
(* What is in memory: each group lists its members, each link knows its group and no other, nothing else is left *)
Definition shows (s : store) (w : world) : Prop :=
  (forall g n l, w_grps w g = Some (n, l) -> grps s g = Some n /\ forall fuel, length l < fuel -> iterate fuel (nodes s) g = Ok (Some l) /\ iterate_back fuel (nodes s) g = Ok (Some (rev l)))
  /\ (forall x a, w_links w x = Some a -> exists k, links s x = Some k /\ attrs_of k = a /\ forall g, k_group k = Some g <-> grouped w x g)
  /\ (forall g, w_grps w g = None -> grps s g = None) /\ (forall x, w_links w x = None -> links s x = None)
  /\ (forall x, nodes s x = None <-> ~ live w x).

(* Notifications.  The lines of a message, and the first line that begins with a key *)
Fixpoint join_lines (ls : list bytes) : bytes := match ls with [] => [] | [l] => l | l :: ls => l ++ LF :: join_lines ls end.
Definition begins (k l : bytes) : bool := if list_eq_dec Ascii.ascii_dec (firstn (length k) l) k then true else false.
Definition first_line (k : bytes) (ls : list bytes) : bytes := match find (begins k) ls with Some l => l ++ [LF] | None => [] end.
(* What is told to systemd: a line for each bit of the notification, in this order *)
Definition line (s : string) : bytes := B s ++ [LF].
Definition told (notif : N) (ls : list bytes) : bytes :=
  List.concat (map (fun x => if N.testbit notif (fst x) then snd x else [])
    [(1%N, first_line (B "STATUS=") ls); (2%N, first_line (B "ERRNO=") ls); (3%N, line "READY=1"); (4%N, line "RELOADING=1"); (5%N, line "STOPPING=1"); (6%N, line "WATCHDOG=1"); (7%N, line "WATCHDOG=trigger")]).
(* What is written to a log *)
Definition logged (notif : N) (text : bytes) : list bytes :=
  map snd (filter (fun x => N.testbit notif (fst x))
    [(8%N, text); (1%N, text); (3%N, B "| READY |"); (4%N, B "| RELOADING |"); (5%N, B "| STOPPING |"); (6%N, B "| WATCHDOG_REFRESH |"); (7%N, B "| WATCHDOG_TRIGGER |")]).
(* the effects on one link; msg is None for an empty format, otherwise the lines of the message *)
Definition effects (notif : N) (msg : option (list bytes)) (a : attrs) : list effect :=
  let '(_, t, no, _, d) := a in
  if (N.land no notif =? 0)%N then []
  else match t with
       | 1 => [Systemd (told notif (match msg with Some ls => ls | None => [] end)) (N.testbit notif 0)]
       | 2 => map (Logged d) (logged notif (match msg with Some ls => join_lines ls | None => [] end))
       | _ => []
       end.
(* how often the message is formatted for it *)
Definition formats (notif : N) (msg : option (list bytes)) (a : attrs) : nat :=
  let '(_, t, no, _, _) := a in
  if (N.land no notif =? 0)%N then 0
  else match t with
       | 1 => match msg with Some _ => 1 | None => 0 end
       | 2 => (if N.testbit notif 8 then 1 else 0) + (if N.testbit notif 1 then 1 else 0)
       | _ => 0
       end.
Definition total_formats notif msg (l : list attrs) : nat := list_sum (map (formats notif msg) l).
Definition all_attrs (w : world) (l : list loc) (atts : list attrs) : Prop := Forall2 (fun x a => w_links w x = Some a) l atts.
(* the message as handed over, and lines that are lines *)
Definition msg_bytes (msg : option (list bytes)) : option bytes := option_map join_lines msg.
Definition good_lines (msg : option (list bytes)) : Prop := forall ls, msg = Some ls -> forall l, In l ls -> ~ In LF l.
