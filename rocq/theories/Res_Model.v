(* Resources, src/resource/res.c: the tree, references, search, isolation, iteration and the counters of event sources.
   The store has one slot per resource ever created (slot = its address), empty once freed.  The list of children of a resource is a
   list of addresses (the links themselves are in List_Model).  The groups of service links are in SrvLnk_Model and left out here, as
   are custom data and the file descriptor for signals.  The destroy function of a type is taken not to change the tree; the calls of
   destroy functions are kept in order.  Memory is taken to suffice. *)
From Verif Require Import Base UtilStr_Model.
Local Open Scope nat_scope.

(* sid_res_flags_t and sid_res_isol_fl_t, src/include/resource/res.h:43-47 and 147-149, as the number of the bit *)
Definition BIT_RESTRICT_UP : N := 0. Definition BIT_RESTRICT_DOWN : N := 1. Definition BIT_NO_ISOLATION : N := 2.
Definition BIT_SUBTREE : N := 0.
(* struct sid_res, src/resource/res.c:42-71; of the type (src/include/resource/res.h:27-36) which it is, its short name and whether
   it comes with an event loop *)
Record rrec := Rrec { r_parent : option nat; r_children : list nat; r_type : nat; r_short : option bytes; r_id : bytes; r_flags : N; r_prio : Z; r_refs : N; r_init : bool; r_loop : bool }.
Definition st := list (option rrec).
Definition rget (s : st) (r : nat) : option rrec := nth r s None.
Definition rset (s : st) (r : nat) (k : option rrec) : st := firstn r s ++ k :: skipn (S r) s.
Definition set_parent (k : rrec) p := Rrec p (r_children k) (r_type k) (r_short k) (r_id k) (r_flags k) (r_prio k) (r_refs k) (r_init k) (r_loop k).
Definition set_children (k : rrec) l := Rrec (r_parent k) l (r_type k) (r_short k) (r_id k) (r_flags k) (r_prio k) (r_refs k) (r_init k) (r_loop k).
Definition set_flags (k : rrec) f := Rrec (r_parent k) (r_children k) (r_type k) (r_short k) (r_id k) f (r_prio k) (r_refs k) (r_init k) (r_loop k).
Definition set_priority (k : rrec) p := Rrec (r_parent k) (r_children k) (r_type k) (r_short k) (r_id k) (r_flags k) p (r_refs k) (r_init k) (r_loop k).
Definition set_refs (k : rrec) n := Rrec (r_parent k) (r_children k) (r_type k) (r_short k) (r_id k) (r_flags k) (r_prio k) n (r_init k) (r_loop k).
Definition set_init (k : rrec) b := Rrec (r_parent k) (r_children k) (r_type k) (r_short k) (r_id k) (r_flags k) (r_prio k) (r_refs k) b (r_loop k).
(* any access of a resource; a freed one must not be accessed *)
Definition the (s : st) (r : nat) : outcome rrec := match rget s r with Some k => Ok k | None => UB end.
(* ref_count is unsigned: ++ and -- wrap *)
Definition inc (n : N) : N := if (n =? 4294967295)%N then 0%N else (n + 1)%N.
Definition dec (n : N) : N := if (n =? 0)%N then 4294967295%N else (n - 1)%N.

(* The loop of _add_res_to_parent_res, src/resource/res.c:227-233, and list_add before the child found or at the end *)
Fixpoint place (s : st) (prio : Z) (r : nat) (l : list nat) : outcome (list nat) :=
  match l with
  | [] => Ok [r]
  | c :: l' =>
    let! k := the s c in
    if (prio <? r_prio k)%Z then Ok (r :: l)
    else let! l' := place s prio r l' in Ok (c :: l')
  end.
(* _add_res_to_parent_res, src/resource/res.c:221-236 *)
Definition add_to_parent (s : st) (r : nat) (p : option nat) : outcome st :=
  let! k := the s r in
  let s := rset s r (Some (set_parent k p)) in
  match p with
  | None => Ok s
  | Some p =>
    let! kp := the s p in
    let! l := place s (r_prio k) r (r_children kp) in
    let s := rset s p (Some (set_children kp l)) in
    let! k := the s r in
    Ok (rset s r (Some (set_refs k (inc (r_refs k)))))
  end.
(* _remove_res_from_parent_res, src/resource/res.c:238-245; list_del writes to the neighbours in the list of the parent *)
Definition remove_from_parent (s : st) (r : nat) : outcome st :=
  let! k := the s r in
  match r_parent k with
  | None => Ok s
  | Some p =>
    let! kp := the s p in
    let s := rset s p (Some (set_children kp (remove Nat.eq_dec r (r_children kp)))) in
    let! k := the s r in
    Ok (rset s r (Some (set_refs (set_parent k None) (dec (r_refs k)))))
  end.
(* The identifier, src/resource/res.c:261-269, without its NUL; src/resource/res.c:262 allocates for just that *)
Definition make_id (short part : option bytes) : bytes := match short with Some n => n | None => [] end ++ match part with Some p => B " " ++ p | None => [] end.
(* sid_res_create up to the call of the init function, src/resource/res.c:247-318.  The init function may do anything with resources;
   it is the calls made between this one and create_ok or create_fail *)
Definition create_begin (s : st) (parent : option nat) (type : nat) (short part : option bytes) (loop : bool) (flags : N) (prio : Z) : outcome (st * nat) :=
  let r := length s in
  let s := s ++ [Some (Rrec None [] type short (make_id short part) flags prio 1 false loop)] in
  let! s := add_to_parent s r parent in
  Ok (s, r).
(* src/resource/res.c:321-327 *)
Definition create_ok (s : st) (r : nat) : outcome st :=
  let! k := the s r in
  Ok (rset s r (Some (set_init (set_refs k (dec (r_refs k))) true))).

(* _do_sid_res_unref, src/resource/res.c:359-454: the store and the calls of destroy functions.  Fuel for the depth of the tree; the
   loop over the children goes from the last to the first and takes the next one before it removes a child (l. 422-424). *)
Definition free (s : st) (r : nat) : st := rset s r None.
Fixpoint do_unref (fuel : nat) (s : st) (r : nat) (nested : bool) : outcome (st * list nat) :=
  match fuel with
  | O => UB
  | S fuel =>
    let! k := the s r in
    let has_parent := match r_parent k with Some _ => true | None => false end in
    let! (s, destroy) :=
      if has_parent && (r_refs k =? 1)%N then Ok (s, true)
      else if negb has_parent && (r_refs k =? 0)%N then Ok (s, true)
      else if nested then let! s := remove_from_parent s r in Ok (s, false)
      else Ok (rset s r (Some (set_refs k (dec (r_refs k)))), (dec (r_refs k) =? 0)%N) in
    if destroy then
      let! (s, tr) := (fix each (s : st) (l : list nat) : outcome (st * list nat) :=
        match l with [] => Ok (s, []) | c :: l => let! (s, tr1) := do_unref fuel s c true in let! (s, tr2) := each s l in Ok (s, tr1 ++ tr2) end) s (rev (r_children k)) in
      let! s := remove_from_parent s r in
      Ok (free s r, tr ++ [r])
    else Ok (s, [])
  end.
(* depth enough for every tree of the store *)
Definition fuel_of (s : st) : nat := S (length s).
(* sid_res_unref, src/resource/res.c:456-459 *)
Definition unref (s : st) (r : nat) : outcome (st * list nat) := do_unref (fuel_of s) s r false.
(* sid_res_create once the init function has failed, src/resource/res.c:328-357: children are dropped from the last to the first *)
Fixpoint unref_all (s : st) (l : list nat) : outcome (st * list nat) :=
  match l with [] => Ok (s, []) | c :: l => let! (s, tr1) := unref s c in let! (s, tr2) := unref_all s l in Ok (s, tr1 ++ tr2) end.
Definition create_fail (s : st) (r : nat) : outcome (st * list nat) :=
  let! k := the s r in
  let! (s, tr) := unref_all s (rev (r_children k)) in
  let! s := remove_from_parent s r in
  Ok (free s r, tr).
(* sid_res_ref, src/resource/res.c:470-476 *)
Definition ref (s : st) (r : nat) : outcome st := let! k := the s r in Ok (rset s r (Some (set_refs k (inc (r_refs k))))).
(* sid_res_get_id, src/resource/res.c:483-489: behind the short name and the separator; without an id part that is behind the NUL *)
Definition get_id (k : rrec) : outcome bytes :=
  match r_short k with
  | None => Ok (r_id k)
  | Some n => if length (r_id k) <? length n + 1 then UB else Ok (skipn (length n + 1) (r_id k))
  end.
(* sid_res_set_prio, src/resource/res.c:496-516 *)
Definition set_prio (s : st) (r : nat) (prio : Z) : outcome st :=
  let! k := the s r in
  if (prio =? r_prio k)%Z then Ok s
  else match r_parent k with
  | None => Ok s
  | Some p =>
    let! s := remove_from_parent s r in
    let! k := the s r in
    add_to_parent (rset s r (Some (set_priority k prio))) r (Some p)
  end.
(* sid_res_add_child, src/resource/res.c:1192-1207, without the groups of service links *)
Definition add_child (s : st) (r child : nat) (flags : N) : outcome (st * Z) :=
  let! k := the s child in
  match r_parent k with
  | Some _ => Ok (s, (- EBUSY)%Z)
  | None => let! s := add_to_parent (rset s child (Some (set_flags k flags))) child (Some r) in Ok (s, 0%Z)
  end.
(* sid_res_isolate, src/resource/res.c:1225-1251, without the groups of service links *)
Fixpoint reparent (s : st) (p : option nat) (l : list nat) : outcome st :=
  match l with [] => Ok s | c :: l => let! s := remove_from_parent s c in let! s := add_to_parent s c p in reparent s p l end.
Definition isolate (s : st) (r : nat) (flags : N) : outcome (st * Z) :=
  let! k := the s r in
  if r_loop k || match r_parent k with None => true | Some _ => false end || N.testbit (r_flags k) BIT_NO_ISOLATION then Ok (s, (- EPERM)%Z)
  else if N.testbit flags BIT_SUBTREE then let! s := remove_from_parent s r in Ok (s, 0%Z)
  else
    let! s := reparent s (r_parent k) (r_children k) in
    let! s := remove_from_parent s r in
    Ok (s, 0%Z).

(* Searching.  The resource to match: none given, MATCH_RES_ANY or a resource *)
Inductive mres := MNone | MAny | MRes (r : nat).
Definition given (m : mres) : bool := match m with MNone => false | _ => true end.
(* _res_match, src/resource/res.c:1024-1028, of a resource that is not NULL *)
Definition res_match (s : st) (r : nat) (type : option nat) (id : option bytes) (m : mres) : outcome bool :=
  let! k := the s r in
  if match type with Some t => r_type k =? t | None => true end then
    let! same := match id with Some i => let! g := get_id k in Ok (if list_eq_dec Ascii.ascii_dec g i then true else false) | None => Ok true end in
    Ok (same && match m with MRes x => r =? x | _ => true end)
  else Ok false.
(* _can_walk_down and _can_walk_up, src/resource/res.c:1035-1043 *)
Definition can_walk_down (s : st) (r : nat) (ign : option nat) (m : mres) : outcome bool :=
  if given m then Ok true
  else if match ign with Some i => r =? i | None => false end then Ok false else let! k := the s r in Ok (negb (N.testbit (r_flags k) BIT_RESTRICT_DOWN)).
Definition can_walk_up (k : rrec) (m : mres) : bool := given m || match r_parent k with Some _ => true | None => false end && negb (N.testbit (r_flags k) BIT_RESTRICT_UP).
(* sid_res_search_t, src/include/resource/res.h:103-130, without the marks *)
Inductive method := IMM_DESC | DFS | WIDE_DFS | IMM_ANC | ANC | TOP | GENUS | SIB.
(* _search_down, src/resource/res.c:1045-1075; fuel for the depth *)
Fixpoint search_down (fuel : nat) (s : st) (r : nat) (me : method) (type : option nat) (id : option bytes) (ign : option nat) (m : mres) : outcome (option nat) :=
  match fuel with
  | O => UB
  | S fuel =>
    let! k := the s r in
    let! found := (fix first (l : list nat) : outcome (option nat) :=
      match l with
      | [] => Ok None
      | c :: l =>
        let! w := can_walk_down s c ign m in
        if negb w then first l
        else
          let! b := res_match s c type id m in
          if b then Ok (Some c)
          else match me with
          | DFS => let! f := search_down fuel s c me type id None m in match f with Some _ => Ok f | None => first l end
          | _ => first l
          end
      end) (r_children k) in
    match found, me with
    | None, WIDE_DFS =>
      (fix below (l : list nat) : outcome (option nat) :=
        match l with [] => Ok None | c :: l => let! f := search_down fuel s c me type id None m in match f with Some _ => Ok f | None => below l end end) (r_children k)
    | _, _ => Ok found
    end
  end.
(* _search_up, src/resource/res.c:1077-1110, where ign_res is always NULL; fuel for the height *)
Fixpoint search_up (fuel : nat) (s : st) (r : nat) (me : method) (type : option nat) (id : option bytes) (m : mres) : outcome (option nat) :=
  match fuel with
  | O => UB
  | S fuel =>
    let! k := the s r in
    let match_parent := match r_parent k with Some p => res_match s p type id m | None => Ok false end in
    match me with
    | IMM_ANC => if can_walk_up k m then let! b := match_parent in Ok (if b then r_parent k else None) else Ok None
    | ANC =>
      if can_walk_up k m then
        let! b := match_parent in
        if b then Ok (r_parent k) else match r_parent k with Some p => search_up fuel s p me type id m | None => Ok None end
      else Ok None
    | TOP =>
      match r_parent k with
      | Some p => if can_walk_up k m then search_up fuel s p me type id m else Ok None
      | None => let! b := res_match s r type id m in Ok (if b then Some r else None)
      end
    | _ => Ok None
    end
  end.
(* _search and _do_sid_res_search, src/resource/res.c:1112-1149 *)
Definition do_search (s : st) (start : nat) (me : method) (type : option nat) (id : option bytes) (m : mres) : outcome (option nat) :=
  let f := fuel_of s in
  match me with
  | IMM_DESC | DFS | WIDE_DFS => search_down f s start me type id None m
  | IMM_ANC | ANC | TOP => search_up f s start me type id m
  | GENUS => let! t := search_up f s start TOP None None m in match t with None => Ok None | Some t => search_down f s t WIDE_DFS type id None m end
  | SIB => let! t := search_up f s start IMM_ANC None None m in match t with None => Ok None | Some t => search_down f s t IMM_DESC type id (Some start) m end
  end.
(* sid_res_search, sid_res_search_match, sid_res_search_match_res, src/resource/res.c:1151-1164 *)
Definition search s start me type id := do_search s start me type id MNone.
Definition search_match s start me type id : outcome bool := let! f := do_search s start me type id MAny in Ok (match f with Some _ => true | None => false end).
Definition search_match_res s start me r : outcome bool := let! f := do_search s start me None None (MRes r) in Ok (match f with Some _ => true | None => false end).

(* Iterating, src/resource/res.c:1253-1324.  A place in the list of children: None is the head.  The list is taken not to change while it
   is iterated over. *)
Record iter := Iter { i_res : nat; i_prev : option nat; i_current : option nat; i_next : option nat }.
Fixpoint after (l : list nat) (c : nat) : option nat := match l with [] => None | x :: l => if x =? c then hd_error l else after l c end.
Definition iter_reset (s : st) (r : nat) : outcome iter := let! k := the s r in Ok (Iter r (hd_error (rev (r_children k))) None (hd_error (r_children k))).
Fixpoint iter_next (fuel : nat) (s : st) (i : iter) : outcome (iter * option nat) :=
  match fuel with
  | O => UB
  | S fuel =>
    match i_next i with
    | None => Ok (i, None)
    | Some c =>
      let! kr := the s (i_res i) in
      let i := Iter (i_res i) (i_prev i) (Some c) (after (r_children kr) c) in
      let! k := the s c in
      if N.testbit (r_flags k) BIT_RESTRICT_DOWN then iter_next fuel s i else Ok (i, Some c)
    end
  end.
Fixpoint iter_previous (fuel : nat) (s : st) (i : iter) : outcome (iter * option nat) :=
  match fuel with
  | O => UB
  | S fuel =>
    match i_prev i with
    | None => Ok (i, None)
    | Some c =>
      let! kr := the s (i_res i) in
      let i := Iter (i_res i) (after (rev (r_children kr)) c) (Some c) (i_next i) in
      let! k := the s c in
      if N.testbit (r_flags k) BIT_RESTRICT_DOWN then iter_previous fuel s i else Ok (i, Some c)
    end
  end.
