(* Changes of lists of members (groups, aliases, device stack) and their deltas, src/resource/ubr.c.
   A member list is stored as a vector record: four header items and one item per member, a NUL-terminated string, written here
   without its NUL.  The store is used inside one transaction that is always committed; no key is written again after being
   unset in it, so the updates are applied directly (C28). *)
From Verif Require Import Base Kvs_Model Tok_Model Bptree_Model UbrKey_Model UbrDb_Model.
Local Open Scope nat_scope.

Definition ENOTEMPTY : Z := 39.
(* A result, an error code below zero, or undefined behaviour *)
Inductive dres (A : Type) := DOk (a : A) | DErr | DUB.
Arguments DOk {A} _. Arguments DErr {A}. Arguments DUB {A}.
Definition dbind {A C} (x : dres A) (f : A -> dres C) : dres C := match x with DOk a => f a | DErr => DErr | DUB => DUB end.
Notation "'let?' x := e 'in' k" := (dbind e (fun x => k)) (at level 200, x pattern, right associativity).

(* VVALUE_HEADER_CNT, src/resource/ubr.c:343 *)
Definition HEADER_CNT := 4.
(* A vector buffer of fixed size (alloc_step 0), without the header items: NULL or room and contents *)
Record dbuf := Dbuf { room : nat; items : list bytes }.
Definition buf := option dbuf.
(* _init_delta_buffer, src/resource/ubr.c:1739-1767; size counts the header *)
Definition init_buffer (size : nat) : dres buf :=
  if size =? 0 then DOk None
  else if size <? HEADER_CNT then DErr
  else DOk (Some (Dbuf (size - HEADER_CNT) [])).
(* sid_buf_add on it: a full buffer does not grow, a NULL one is dereferenced *)
Definition buf_add (b : buf) (x : bytes) : dres buf :=
  match b with
  | None => DUB
  | Some b => if length (items b) <? room b then DOk (Some (Dbuf (room b) (items b ++ [x]))) else DErr
  end.
Definition buf_items (b : buf) : list bytes := match b with Some b => items b | None => [] end.
(* _destroy_unused_delta_buffers, src/resource/ubr.c:1722-1737 *)
Definition drop_unused (b : buf) : buf := match b with Some b => match items b with [] => None | _ => Some b end | None => None end.

(* struct kv_delta without op and flags, src/resource/ubr.c:393-399 *)
Record delta := Delta { d_plus : buf; d_minus : buf; d_final : buf }.
(* The three cases of the loop of _delta_step_calc, src/resource/ubr.c:1812-1933: an item of the old list only, of the new
   list only, of both *)
Definition on_old (op : kv_op) (x : bytes) (s : delta) : dres delta :=
  match op with
  | OP_SET => let? m := buf_add (d_minus s) x in DOk (Delta (d_plus s) m (d_final s))
  | OP_PLUS | OP_MINUS => let? f := buf_add (d_final s) x in DOk (Delta (d_plus s) (d_minus s) f)
  end.
Definition on_new (op : kv_op) (x : bytes) (s : delta) : dres delta :=
  match op with
  | OP_SET | OP_PLUS =>
    let? p := buf_add (d_plus s) x in let? f := buf_add (d_final s) x in DOk (Delta p (d_minus s) f)
  | OP_MINUS => DOk s
  end.
Definition on_both (op : kv_op) (x : bytes) (s : delta) : dres delta :=
  match op with
  | OP_SET | OP_PLUS => let? f := buf_add (d_final s) x in DOk (Delta (d_plus s) (d_minus s) f)
  | OP_MINUS => let? m := buf_add (d_minus s) x in DOk (Delta (d_plus s) m (d_final s))
  end.
(* the loop, src/resource/ubr.c:1806-1945 *)
Fixpoint delta_walk (op : kv_op) (old : list bytes) : list bytes -> delta -> dres delta :=
  fix walk (new : list bytes) (s : delta) : dres delta :=
    match old, new with
    | [], [] => DOk s
    | [], n :: new' => let? s := on_new op n s in walk new' s
    | o :: old', [] => let? s := on_old op o s in delta_walk op old' [] s
    | o :: old', n :: new' =>
      match scmp o n with
      | Lt => let? s := on_old op o s in delta_walk op old' new s
      | Gt => let? s := on_new op n s in walk new' s
      | Eq => let? s := on_both op n s in delta_walk op old' new' s
      end
    end.
(* _delta_step_calc, src/resource/ubr.c:1781-1959: old is None when there is no old record *)
Definition delta_step_calc (op : kv_op) (old : option (list bytes)) (new : list bytes) : dres delta :=
  let old_vsize := match old with None => 0 | Some o => HEADER_CNT + length o end in
  let new_vsize := HEADER_CNT + length new in
  let? p := init_buffer new_vsize in
  let? m := init_buffer old_vsize in
  let? f := init_buffer (old_vsize + new_vsize) in
  let? s := delta_walk op (match old with Some o => o | None => [] end) new (Delta p m f) in
  DOk (Delta (drop_unused (d_plus s)) (drop_unused (d_minus s)) (d_final s)).

(* _delta_cross_bitmap_calc, src/resource/ubr.c:1961-1998: the bits left set for the data items of both lists; the bits of
   the header items stay set *)
Fixpoint cross (old : list bytes) : list bytes -> list bool * list bool :=
  fix walk (new : list bytes) : list bool * list bool :=
    match old, new with
    | [], _ => ([], map (fun _ => true) new)
    | _, [] => (map (fun _ => true) old, [])
    | o :: old', n :: new' =>
      match scmp o n with
      | Lt => let (a, b) := cross old' new in (true :: a, b)
      | Gt => let (a, b) := walk new' in (a, true :: b)
      | Eq => let (a, b) := cross old' new' in (false :: a, false :: b)
      end
    end.
Definition all_set (l : list bytes) : list bool := map (fun _ => true) l.
(* bmp_get_bit_set_count, header included *)
Definition set_count (b : list bool) : nat := HEADER_CNT + length (filter (fun x => x) b).
(* the loops of src/resource/ubr.c:2096-2137 *)
Fixpoint add_kept (b : buf) (l : list bytes) (bits : list bool) : dres buf :=
  match l, bits with
  | x :: l, true :: bits => let? b := buf_add b x in add_kept b l bits
  | _ :: l, false :: bits => add_kept b l bits
  | _, _ => DOk b
  end.
(* qsort with _vvalue_str_cmp, src/resource/ubr.c:2139-2147 *)
Fixpoint insert (x : bytes) (l : list bytes) : list bytes :=
  match l with [] => [x] | y :: l' => match scmp x y with Gt => y :: insert x l' | _ => x :: l end end.
Definition qsort (l : list bytes) : list bytes := fold_right insert [] l.
Definition sort_buf (b : buf) : buf := match b with Some b => Some (Dbuf (room b) (qsort (items b))) | None => None end.
(* _delta_abs_calc, src/resource/ubr.c:2010-2172: the lists stored so far under the + and - keys (None: no record) and the
   delta of this step give the new + and - lists *)
Definition delta_abs_calc (old_plus old_minus : option (list bytes)) (s : delta) : dres (buf * buf) :=
  match d_plus s, d_minus s with
  | None, None => DOk (None, None)
  | _, _ =>
    let l o := match o with Some l => l | None => [] end in
    let '(p_old, m_new) := match d_minus s with Some m => cross (l old_plus) (items m) | None => (all_set (l old_plus), []) end in
    let '(m_old, p_new) := match d_plus s with Some p => cross (l old_minus) (items p) | None => (all_set (l old_minus), []) end in
    let size o bo b bn :=
      let n := (match o with Some _ => set_count bo | None => 0 end) + (match b with Some _ => set_count bn | None => 0 end) in
      match o, b with Some _, Some _ => n - HEADER_CNT | _, _ => n end in
    let? plus := init_buffer (size old_plus p_old (d_plus s) p_new) in
    let? minus := init_buffer (size old_minus m_old (d_minus s) m_new) in
    let? plus := add_kept plus (l old_plus) p_old in
    let? minus := add_kept minus (buf_items (d_minus s)) m_new in
    let? minus := add_kept minus (l old_minus) m_old in
    let? plus := add_kept plus (buf_items (d_plus s)) p_new in
    DOk (sort_buf plus, sort_buf minus)
  end.

(* The header of a record being written *)
Record hdr := Hdr { h_seq : N; h_flags : N; h_gen : N; h_owner : bytes }.
Definition rec_with (h : hdr) (l : list bytes) : rec := Rec (h_seq h) (h_flags h) (h_gen h) (h_owner h) l.
(* DEFAULT_VALUE_FLAGS_CORE and value_flags_no_sync, src/resource/ubr.c:107 and 537 *)
Definition FL_RD : N := 224.
Definition FLAGS_CORE : N := N.lor FL_SYNC_P (N.lor FL_RS FL_RD).
Definition FLAGS_NO_SYNC : N := N.ldiff FLAGS_CORE FL_SYNC.

Definition store_key (k : key_spec) : bytes := canonicalize_key (compose_key k).
Definition with_op (k : key_spec) (op : kv_op) : key_spec :=
  KeySpec (ks_extra k) op (ks_dom k) (ks_ns k) (ks_ns_part k) (ks_id_cat k) (ks_id k) (ks_core k).
Definition data_at (d : db) (k : bytes) : option (list bytes) := match recs d k with Some r => Some (r_data r) | None => None end.

(* sid_kvs_va_set with _kv_cb_delta_step, src/resource/ubr.c:2343-2384 and 2411-2420: database, update_arg->ret_code and the
   delta.  On failure of the calculation its buffers are NULL. *)
Definition no_delta : delta := Delta None None None.
Definition delta_write (d : db) (k : bytes) (h : hdr) (op : kv_op) (new : list bytes) (is_sync : bool) : dres (db * Z * delta) :=
  let old := recs d k in
  let c := check_kv_wr_allowed old (h_owner h) in
  if (c <? 0)%Z then DOk (d, if is_sync then 0%Z else c, no_delta)
  else
    match delta_step_calc op (data_at d k) new with
    | DErr => DOk (d, (-1)%Z, no_delta)
    | DUB => DUB
    | DOk s =>
      match d_final s with
      | Some f => DOk (Db (put (recs d) k (Some (rec_with h (items f)))) (indexed d), 0%Z, s)
      | None => DOk (d, 0%Z, s)
      end
    end.

(* The first half of _delta_update, src/resource/ubr.c:2183-2258, outside a synchronisation: store or unset an absolute delta
   and its sync index *)
Definition store_abs (d : db) (k : bytes) (h : hdr) (abs : dbuf) : db :=
  let h := Hdr (h_seq h) (N.lor (h_flags h) FL_SYNC) (h_gen h) (h_owner h) in
  match items abs with
  | [] =>
    let '(d, code) := kvs_unset d k (fun old =>
        let c := check_kv_wr_allowed old (h_owner h) in
        if (c <? 0)%Z then (c, false) else (check_kv_index_needed false old None, true)) in
    manage_kv_index d code k
  | l =>
    let '(d, code, _) := kvs_set d k (rec_with h l) None (cb_write false) in manage_kv_index d code k
  end.

(* _do_kv_delta_set with DELTA_WITH_DIFF alone, src/resource/ubr.c:2386-2466, outside a synchronisation *)
Definition delta_set_diff (d : db) (cur : key_spec) (h : hdr) (op : kv_op) (new : list bytes) : outcome (db * Z) :=
  match delta_write d (store_key cur) h op new false with
  | DUB => UB
  | DErr => Ok (d, (-1)%Z)
  | DOk (d, code, s) =>
    if (code <? 0)%Z then Ok (d, (-1)%Z)
    else
      let kp := store_key (with_op cur OP_PLUS) in
      let km := store_key (with_op cur OP_MINUS) in
      match delta_abs_calc (data_at d kp) (data_at d km) s with
      | DUB => UB
      | DErr => Ok (d, (-1)%Z)
      | DOk (plus, minus) =>
        let d := match plus with Some p => store_abs d kp h p | None => d end in
        let d := match minus with Some m => store_abs d km h m | None => d end in
        Ok (d, 0%Z)
      end
  end.

(* The key of a relative, src/resource/ubr.c:2297-2316; None: the loop is left with an error *)
Definition relative (rel : key_spec) (item : bytes) : option key_spec :=
  match ks_ns rel with
  | NS_DEVICE =>
    match get_key_part item KEY_PART_NS_PART with
    | Some p => Some (KeySpec (ks_extra rel) (ks_op rel) (ks_dom rel) (ks_ns rel) (Some p) (ks_id_cat rel) (ks_id rel) (ks_core rel))
    | None => None
    end
  | NS_MODULE =>
    match get_key_part item KEY_PART_ID with
    | Some p => Some (KeySpec (ks_extra rel) (ks_op rel) (ks_dom rel) (ks_ns rel) (ks_ns_part rel) (ks_id_cat rel) (Some p) (ks_core rel))
    | None => None
    end
  | _ => None
  end.
(* The second half of _delta_update, src/resource/ubr.c:2260-2341; the result of each relative is ignored *)
Fixpoint delta_rels (d : db) (cur rel : key_spec) (h : hdr) (op : kv_op) (l : list bytes) : outcome (db * Z) :=
  match l with
  | [] => Ok (d, 0%Z)
  | x :: l =>
    match relative rel x with
    | None => Ok (d, (-1)%Z)
    | Some k =>
      let! (d, _) := delta_set_diff d k (Hdr (h_seq h) FLAGS_NO_SYNC (h_gen h) (h_owner h)) op [compose_key_prefix cur] in
      delta_rels d cur rel h op l
    end
  end.
(* _delta_update with DELTA_WITH_REL *)
Definition delta_update (d : db) (cur rel : key_spec) (h : hdr) (op : kv_op) (abs now : buf) : outcome (db * Z) :=
  match abs with
  | None => Ok (d, 0%Z)
  | Some a => delta_rels (store_abs d (store_key (with_op cur op)) h a) cur rel h op (buf_items now)
  end.
(* _do_kv_delta_set with DELTA_WITH_REL and _kv_delta_set, src/resource/ubr.c:2386-2482 *)
Definition kv_delta_set (d : db) (cur rel : key_spec) (h : hdr) (op : kv_op) (new : list bytes) : outcome (db * Z) :=
  match delta_write d (store_key cur) h op new false with
  | DUB => UB
  | DErr => Ok (d, (-1)%Z)
  | DOk (d, code, s) =>
    if (code <? 0)%Z then Ok (d, (-1)%Z)
    else
      match delta_abs_calc (data_at d (store_key (with_op cur OP_PLUS))) (data_at d (store_key (with_op cur OP_MINUS))) s with
      | DUB => UB
      | DErr => Ok (d, (-1)%Z)
      | DOk (plus, minus) =>
        let! (d, r) := delta_update d cur rel h OP_PLUS plus (d_plus s) in
        if (r <? 0)%Z then Ok (d, (-1)%Z)
        else let! (d, r) := delta_update d cur rel h OP_MINUS minus (d_minus s) in
             if (r <? 0)%Z then Ok (d, (-1)%Z) else Ok (d, 0%Z)
      end
  end.

(* Key specifications of _handle_devs_for_group, src/resource/ubr.c:3300-3311; the group's part is always the module *)
Definition group_spec (owner dom : bytes) (ns : kv_ns) (cat id : bytes) : key_spec :=
  KeySpec None OP_SET (Some dom) ns (Some owner) (Some cat) (Some id) (Some K_MEMBERS).
Definition dev_spec (uid : bytes) : key_spec := KeySpec None OP_SET None NS_DEVICE (Some uid) None None (Some K_IN).
(* of _do_sid_ucmd_group_destroy and _do_sid_ucmd_group_create, src/resource/ubr.c:3376-3385 and 3575-3580; the part is
   that of the group's namespace *)
Definition group_spec_ns (u : ucmd) (owner dom : bytes) (ns : kv_ns) (cat : option bytes) (id : bytes) : key_spec :=
  KeySpec None OP_SET (Some dom) ns (Some (get_ns_part (u_dev u) owner ns)) cat (Some id) (Some K_MEMBERS).
Definition core_hdr (u : ucmd) (flags : N) : hdr := Hdr (u_seq u) flags (u_gen u) OWNER_CORE.
(* _handle_devs_for_group, src/resource/ubr.c:3276-3357: vdevs is None for the device of the command *)
Definition handle_devs_for_group (d : db) (u : ucmd) (owner : bytes) (vdevs : option (list bytes)) (dom : bytes) (ns : kv_ns)
    (cat id : bytes) (op : kv_op) : outcome (db * Z) :=
  let rel := dev_spec (get_ns_part (u_dev u) owner NS_DEVICE) in
  let new := match vdevs with Some l => l | None => [compose_key_prefix rel] end in
  kv_delta_set d (group_spec owner dom ns cat id) rel (core_hdr u FLAGS_NO_SYNC) op new.
(* _do_sid_ucmd_group_destroy, src/resource/ubr.c:3358-3417.  dflags is the static kv_flags_sync_no_reserved: its sync bit is
   cleared by the first call that stores a delta (_value_vector_mark_sync at 2253 works on the caller's header). *)
Definition group_destroy (d : db) (u : ucmd) (owner dom : bytes) (ns : kv_ns) (cat : option bytes) (id : bytes) (force : bool) (dflags : N)
    : outcome (db * Z) :=
  let cur := group_spec_ns u owner dom ns cat id in
  match data_at d (store_key cur) with
  | None => Ok (d, (-1)%Z)
  | Some l =>
    if negb (length l =? 0) && negb force then Ok (d, (- ENOTEMPTY)%Z)
    else kv_delta_set d cur (KeySpec None OP_SET None NS_DEVICE None None None (Some K_IN)) (core_hdr u dflags) OP_SET []
  end.
(* _do_sid_ucmd_group_create, src/resource/ubr.c:3562-3611 *)
Definition group_create (d : db) (u : ucmd) (owner dom : bytes) (ns : kv_ns) (gflags : N) (cat : option bytes) (id : bytes) : db * Z :=
  let k := compose_key (group_spec_ns u owner dom ns cat id) in
  let '(d, code, _) := kvs_set d k (Rec (u_seq u) gflags (u_gen u) owner []) None (fun old new => cb_write_new_only false 0 old new) in
  (manage_kv_index d code (canonicalize_key k), 0%Z).
(* _update_disk_deps_from_sysfs and _update_part_deps_from_sysfs, src/resource/ubr.c:4923-5150, from the point where the
   device sequence numbers of the devices below are known; the result of _kv_delta_set is ignored *)
Definition dseq_spec (id : option bytes) : key_spec :=
  KeySpec None OP_SET (Some DOM_ALIAS) NS_MODULE (Some OWNER_CORE) (Some (B "dseq")) id (Some K_IN).
Definition members_spec (uid : bytes) : key_spec := KeySpec None OP_SET None NS_DEVICE (Some uid) None None (Some K_MEMBERS).
Definition update_deps (d : db) (u : ucmd) (dseqs : list bytes) : outcome (db * Z) :=
  let new := qsort (map (fun s => compose_key_prefix (dseq_spec (Some s))) dseqs) in
  kv_delta_set d (members_spec (get_ns_part (u_dev u) OWNER_CORE NS_DEVICE)) (dseq_spec None) (core_hdr u FLAGS_NO_SYNC) OP_SET new.

(* The operations of modules on groups and aliases, src/resource/ubr.c:3419-3710, and of the scan on the device stack; the
   tests that the module is loaded are not modelled *)
Inductive gop :=
| AliasAdd (u : ucmd) (owner cat id : bytes)
| AliasDel (u : ucmd) (owner cat id : bytes)
| AliasRename (u : ucmd) (owner cat old new : bytes) (dflags : N)
| GrpCreate (u : ucmd) (owner : bytes) (ns : kv_ns) (flags : N) (cat : option bytes) (id : bytes)
| GrpAdd (u : ucmd) (owner : bytes) (ns : kv_ns) (cat id : bytes)
| GrpDel (u : ucmd) (owner : bytes) (ns : kv_ns) (cat id : bytes)
| GrpDestroy (u : ucmd) (owner : bytes) (ns : kv_ns) (cat : option bytes) (id : bytes) (force : bool) (dflags : N)
| Deps (u : ucmd) (dseqs : list bytes).
Definition empty (s : bytes) : bool := match s with [] => true | _ => false end.
Definition gstep (d : db) (o : gop) : outcome (db * Z) :=
  match o with
  | AliasAdd u owner cat id =>
    if empty cat || empty id then Ok (d, (- EINVAL)%Z) else handle_devs_for_group d u owner None DOM_ALIAS NS_MODULE cat id OP_PLUS
  | AliasDel u owner cat id =>
    if empty cat || empty id then Ok (d, (- EINVAL)%Z) else handle_devs_for_group d u owner None DOM_ALIAS NS_MODULE cat id OP_MINUS
  | AliasRename u owner cat old new dflags =>
    if empty cat || empty old || empty new then Ok (d, (- EINVAL)%Z)
    else
      match cmd_get_key_value d owner (compose_key (group_spec owner DOM_ALIAS NS_MODULE cat old)) with
      | (None, r) => Ok (d, r)
      | (Some (vdevs, _), _) =>
        let! (d, r) := handle_devs_for_group d u owner (Some vdevs) DOM_ALIAS NS_MODULE cat new OP_PLUS in
        if (r <? 0)%Z then Ok (d, r)
        else group_destroy d u owner DOM_ALIAS NS_MODULE (Some cat) old true dflags
      end
  | GrpCreate u owner ns flags cat id =>
    if ns_eqb ns NS_UNDEFINED || empty id then Ok (d, (- EINVAL)%Z)
    else Ok (group_create d u owner DOM_GROUP ns (N.ldiff flags FL_ALIGN) cat id)
  | GrpAdd u owner ns cat id =>
    if ns_eqb ns NS_UNDEFINED || empty cat || empty id then Ok (d, (- EINVAL)%Z)
    else handle_devs_for_group d u owner None DOM_GROUP ns cat id OP_PLUS
  | GrpDel u owner ns cat id =>
    if ns_eqb ns NS_UNDEFINED || empty cat || empty id then Ok (d, (- EINVAL)%Z)
    else handle_devs_for_group d u owner None DOM_GROUP ns cat id OP_MINUS
  | GrpDestroy u owner ns cat id force dflags =>
    if ns_eqb ns NS_UNDEFINED || empty id then Ok (d, (- EINVAL)%Z)
    else group_destroy d u owner DOM_GROUP ns cat id force dflags
  | Deps u dseqs => update_deps d u dseqs
  end.
Fixpoint gsteps (d : db) (l : list gop) : outcome db :=
  match l with [] => Ok d | o :: l => let! (d, _) := gstep d o in gsteps d l end.
