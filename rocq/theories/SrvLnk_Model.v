(* Service links and their groups, src/iface/srv-lnk.c.  A link and its list member have one place, so have a group and the head
   of its list: the list is the first member of the link; that of the group is its second one, but groups are reached by the head
   alone.  What is done to a place that is not a link (any more) as if it were one is UB. *)
From Verif Require Import Base List_Model Tok_Model UbrDb_Model.
Local Open Scope nat_scope.

(* struct sid_srv_lnk, src/iface/srv-lnk.c:23-31, but its list *)
Record link := Link { k_group : option loc; k_name : bytes; k_type : nat; k_notif : N; k_flags : N; k_data : nat }.
(* the memory: the lists, the links, the names of the groups (struct sid_srv_lnk_grp, 33-36) *)
Record store := Store { nodes : mem; links : loc -> option link; grps : loc -> option bytes }.
Definition put {A} (f : loc -> A) (a : loc) (x : A) : loc -> A := fun y => if y =? a then x else f y.
(* SID_SRV_LNK_FL_CLONEABLE, src/include/iface/srv-lnk.h:48 *)
Definition FL_CLONEABLE : N := 1.

(* sid_srv_lnk_create, src/iface/srv-lnk.c:38-58, with the setters of flags, data and notifications, 94-107, that each creation
   is followed by (src/resource/res.c:201-208); the memory is had at a. *)
Definition link_create (s : store) (a : loc) (name : bytes) (type : nat) (notif flags : N) (data : nat) : outcome store :=
  let! m := list_init (write (nodes s) a (Some (0, 0))) a in
  Ok (Store m (put (links s) a (Some (Link None name type notif flags data))) (grps s)).
(* sid_srv_lnk_clone, src/iface/srv-lnk.c:60-83, with name NULL *)
Definition link_clone (s : store) (sl a : loc) : outcome store :=
  match links s sl with
  | Some k => link_create s a (k_name k) (k_type k) (k_notif k) (k_flags k) (k_data k)
  | None => UB
  end.
(* sid_srv_lnk_grp_create, src/iface/srv-lnk.c:114-129 *)
Definition grp_create (s : store) (g : loc) (name : bytes) : outcome store :=
  let! m := list_init (write (nodes s) g (Some (0, 0))) g in
  Ok (Store m (links s) (put (grps s) g (Some name))).
Definition set_group (s : store) (sl : loc) (g : option loc) : outcome store :=
  match links s sl with
  | Some k => Ok (Store (nodes s) (put (links s) sl (Some (Link g (k_name k) (k_type k) (k_notif k) (k_flags k) (k_data k)))) (grps s))
  | None => UB
  end.
(* sid_srv_lnk_grp_add, src/iface/srv-lnk.c:199-203 *)
Definition grp_add (s : store) (g sl : loc) : outcome store :=
  let! m := list_add (nodes s) g sl in
  set_group (Store m (links s) (grps s)) sl (Some g).
(* sid_srv_lnk_grp_del, src/iface/srv-lnk.c:205-214 *)
Definition same_group (a b : option loc) : bool := match a, b with Some x, Some y => x =? y | None, None => true | _, _ => false end.
Definition grp_del (s : store) (g sl : loc) : outcome (store * Z) :=
  match links s sl with
  | None => UB
  | Some k =>
    if negb (same_group (k_group k) (Some g)) then Ok (s, (- EINVAL)%Z)
    else
      let! m := list_del (nodes s) sl in
      let! s := set_group (Store m (links s) (grps s)) sl None in
      Ok (s, 0%Z)
  end.
(* sid_srv_lnk_destroy, src/iface/srv-lnk.c:85-92 *)
Definition link_destroy (s : store) (sl : loc) : outcome store :=
  match links s sl with
  | None => UB
  | Some k =>
    let! s := match k_group k with Some g => let! (s, _) := grp_del s g sl in Ok s | None => Ok s end in
    Ok (Store (write (nodes s) sl None) (put (links s) sl None) (grps s))
  end.
(* list_iterate_items_safe, src/include/internal/list.h:43-48; None when the loop has not ended after fuel steps *)
Fixpoint each_safe (fuel : nat) (body : store -> loc -> outcome store) (s : store) (v t head : loc) : outcome (option store) :=
  match fuel with
  | O => Ok None
  | S fuel =>
    if v =? head then Ok (Some s)
    else
      let! s := body s v in
      let! n := next (nodes s) t in
      each_safe fuel body s t n head
  end.
Definition for_members (fuel : nat) (body : store -> loc -> outcome store) (s : store) (g : loc) : outcome (option store) :=
  let! v := next (nodes s) g in
  let! t := next (nodes s) v in
  each_safe fuel body s v t g.
(* free of a group, src/iface/srv-lnk.c:184-185, 195-196 *)
Definition grp_free (s : store) (g : loc) : outcome store :=
  match grps s g with None => UB | Some _ => Ok (Store (write (nodes s) g None) (links s) (put (grps s) g None)) end.
(* sid_srv_lnk_grp_destroy, src/iface/srv-lnk.c:175-186 *)
Definition grp_destroy (fuel : nat) (s : store) (g : loc) : outcome (option store) :=
  let! r := for_members fuel (fun s sl => let! m := list_del (nodes s) sl in set_group (Store m (links s) (grps s)) sl None) s g in
  match r with None => Ok None | Some s => let! s := grp_free s g in Ok (Some s) end.
(* sid_srv_lnk_grp_destroy_with_members, src/iface/srv-lnk.c:188-197 *)
Definition grp_destroy_with_members (fuel : nat) (s : store) (g : loc) : outcome (option store) :=
  let! r := for_members fuel link_destroy s g in
  match r with None => Ok None | Some s => let! s := grp_free s g in Ok (Some s) end.
(* sid_srv_lnk_grp_merge, src/iface/srv-lnk.c:161-173, of two groups *)
Definition grp_merge (fuel : nat) (s : store) (dest src : loc) : outcome (option store) :=
  let! r := for_members fuel (fun s sl => grp_add s dest sl) s src in
  match r with None => Ok None | Some s => grp_destroy fuel s src end.
(* the loop of sid_srv_lnk_grp_clone, src/iface/srv-lnk.c:145-153; places are where the memory of the next clones is had, there is
   none when they are used up.  The second part of the result is whether all could be cloned. *)
Fixpoint clone_loop (fuel : nat) (s : store) (v head clone : loc) (places : list loc) : outcome (option (store * bool)) :=
  match fuel with
  | O => Ok None
  | S fuel =>
    if v =? head then Ok (Some (s, true))
    else
      match links s v with
      | None => UB
      | Some k =>
        if (N.land (k_flags k) FL_CLONEABLE =? 0)%N then let! n := next (nodes s) v in clone_loop fuel s n head clone places
        else
          match places with
          | [] => Ok (Some (s, false))
          | a :: places =>
            let! s := link_clone s v a in
            let! s := grp_add s clone a in
            let! n := next (nodes s) v in
            clone_loop fuel s n head clone places
          end
      end
  end.
(* sid_srv_lnk_grp_clone, src/iface/srv-lnk.c:131-159, of a group with a name; the memory of the group is had at clone *)
Definition grp_clone (fuel : nat) (s : store) (g clone : loc) (name : bytes) (places : list loc) : outcome (option (store * bool)) :=
  let! s := grp_create s clone name in
  let! v := next (nodes s) g in
  let! r := clone_loop fuel s v g clone places in
  match r with
  | None => Ok None
  | Some (s, true) => Ok (Some (s, true))
  | Some (s, false) => let! r := grp_destroy_with_members fuel s clone in Ok (option_map (fun s => (s, false)) r)
  end.

(* A history of calls *)
Inductive lop :=
| LCreate (a : loc) (name : bytes) (type : nat) (notif flags : N) (data : nat) | LDestroy (a : loc) | GCreate (g : loc) (name : bytes) | GAdd (g a : loc) | GDel (g a : loc)
| GDestroy (g : loc) | GDestroyWith (g : loc) | GClone (g c : loc) (name : bytes) (places : list loc) | GMerge (dest src : loc).
Definition step (fuel : nat) (s : store) (o : lop) : outcome (option store) :=
  match o with
  | LCreate a n t no f d => let! s := link_create s a n t no f d in Ok (Some s)
  | LDestroy a => let! s := link_destroy s a in Ok (Some s)
  | GCreate g n => let! s := grp_create s g n in Ok (Some s)
  | GAdd g a => let! s := grp_add s g a in Ok (Some s)
  | GDel g a => let! (s, _) := grp_del s g a in Ok (Some s)
  | GDestroy g => grp_destroy fuel s g
  | GDestroyWith g => grp_destroy_with_members fuel s g
  | GClone g c n ps => let! r := grp_clone fuel s g c n ps in Ok (option_map fst r)
  | GMerge d c => grp_merge fuel s d c
  end.
Fixpoint steps (fuel : nat) (s : store) (os : list lop) : outcome (option store) :=
  match os with
  | [] => Ok (Some s)
  | o :: os => let! r := step fuel s o in match r with None => Ok None | Some s => steps fuel s os end
  end.

(* _get_arg_value, src/iface/srv-lnk.c:216-239: the value of the first line that begins with the key and '='; the string is taken
   without its NUL.  fuel is the number of lines at most. *)
Definition LF : byte := ascii_of_nat 10.
Fixpoint get_arg_value (fuel : nat) (str key_eq : bytes) : option bytes :=
  match fuel, str with
  | S fuel, _ :: _ =>
    let line_end := match index LF str with Some i => i | None => length str end in
    if key_eqb (firstn (length key_eq) str) key_eq then Some (firstn (line_end - length key_eq) (skipn (length key_eq) str))
    else get_arg_value fuel (skipn (line_end + 1) str) key_eq
  | _, _ => None
  end.
(* SID_SRV_LNK_NOTIF_..., src/include/iface/srv-lnk.h:25-43 *)
Definition NOTIF_UNSET : N := 1. Definition NOTIF_STATUS : N := 2. Definition NOTIF_ERRNO : N := 4. Definition NOTIF_READY : N := 8. Definition NOTIF_RELOADING : N := 16.
Definition NOTIF_STOPPING : N := 32. Definition NOTIF_WATCHDOG_REFRESH : N := 64. Definition NOTIF_WATCHDOG_TRIGGER : N := 128. Definition NOTIF_MESSAGE : N := 256.
Definition asks (notif bit : N) : bool := negb (N.land notif bit =? 0)%N.
(* _notify_systemd, src/iface/srv-lnk.c:241-331: the string handed to sd_notify, without its NUL, and unset; arg is the formatted
   message, None when there is none.  Want of memory is left out, and the precision of %.*s being no int. *)
Definition arg_line (arg : option bytes) (key : string) : bytes :=
  match arg with
  | Some s => match get_arg_value (length s) s (B key ++ B "=") with Some v => B key ++ B "=" ++ v ++ [LF] | None => [] end
  | None => []
  end.
Definition notify_systemd (notif : N) (arg : option bytes) : bytes * bool :=
  ((if asks notif NOTIF_STATUS then arg_line arg "STATUS" else [])
   ++ (if asks notif NOTIF_ERRNO then arg_line arg "ERRNO" else [])
   ++ (if asks notif NOTIF_READY then B "READY=1" ++ [LF] else [])
   ++ (if asks notif NOTIF_RELOADING then B "RELOADING=1" ++ [LF] else [])
   ++ (if asks notif NOTIF_STOPPING then B "STOPPING=1" ++ [LF] else [])
   ++ (if asks notif NOTIF_WATCHDOG_REFRESH then B "WATCHDOG=1" ++ [LF] else [])
   ++ (if asks notif NOTIF_WATCHDOG_TRIGGER then B "WATCHDOG=trigger" ++ [LF] else []), asks notif NOTIF_UNSET).
(* sid_srv_lnk_type_t, src/include/iface/srv-lnk.h:17-21 *)
Definition TYPE_NONE := 0. Definition TYPE_SYSTEMD := 1. Definition TYPE_LOGGER := 2.
(* What a notified link does *)
Inductive effect := Systemd (text : bytes) (unset : bool) | Logged (data : nat) (text : bytes).
(* The arguments of the format can be taken once: they are indeterminate afterwards, and formatting with them is UB unless the
   format takes none.  args is whether it takes any, used whether they were taken. *)
Definition format (args used : bool) : outcome bool := if args && used then UB else Ok args.
(* _notify_logger, src/iface/srv-lnk.c:333-363, of a log that takes messages of the level of the request (src/log/log.c:71-112) *)
Definition notify_logger (k : link) (notif : N) (msg : bytes) (args used : bool) : outcome (list effect * bool) :=
  let! (e1, used) := (if asks notif NOTIF_MESSAGE then let! u := format args used in Ok ([Logged (k_data k) msg], used || u) else Ok ([], used)) in
  let! (e2, used) := (if asks notif NOTIF_STATUS then let! u := format args used in Ok ([Logged (k_data k) msg], used || u) else Ok ([], used)) in
  let say b t := if asks notif b then [Logged (k_data k) (B t)] else [] in
  Ok (e1 ++ e2 ++ say NOTIF_READY "| READY |"%string ++ say NOTIF_RELOADING "| RELOADING |"%string ++ say NOTIF_STOPPING "| STOPPING |"%string
      ++ say NOTIF_WATCHDOG_REFRESH "| WATCHDOG_REFRESH |"%string ++ say NOTIF_WATCHDOG_TRIGGER "| WATCHDOG_TRIGGER |"%string, used).
(* one link of _do_service_link_notify, src/iface/srv-lnk.c:365-409; msg is the formatted message, None for an
   empty format; no format at all is left out, a log would read through it *)
Definition notify_link (k : link) (notif : N) (msg : option bytes) (args used : bool) : outcome (list effect * bool) :=
  if negb (asks (k_notif k) notif) then Ok ([], used)
  else if k_type k =? TYPE_SYSTEMD then
    let! u := (match msg with Some _ => format args used | None => Ok false end) in
    let '(t, unset) := notify_systemd notif msg in
    Ok ([Systemd t unset], used || u)
  else if k_type k =? TYPE_LOGGER then notify_logger k notif (match msg with Some m => m | None => [] end) args used
  else Ok ([], used).
(* the members of a group in turn, src/iface/srv-lnk.c:388-405 *)
Fixpoint notify_links (ks : list link) (notif : N) (msg : option bytes) (args used : bool) : outcome (list effect) :=
  match ks with
  | [] => Ok []
  | k :: ks =>
    let! (e, used) := notify_link k notif msg args used in
    let! es := notify_links ks notif msg args used in
    Ok (e ++ es)
  end.

Fixpoint get_links (s : store) (l : list loc) : outcome (list link) :=
  match l with
  | [] => Ok []
  | x :: l => match links s x with Some k => let! ks := get_links s l in Ok (k :: ks) | None => UB end
  end.
(* sid_srv_lnk_grp_notify, src/iface/srv-lnk.c:441-456 with 388-405: the members are not changed while they are gone through; the
   result, that of the last that failed, is left out *)
Definition grp_notify (fuel : nat) (s : store) (g : loc) (notif : N) (msg : option bytes) (args : bool) : outcome (option (list effect)) :=
  let! r := List_Model.iterate fuel (nodes s) g in
  match r with
  | None => Ok None
  | Some l => let! ks := get_links s l in let! es := notify_links ks notif msg args false in Ok (Some es)
  end.
