(* The database file, its loading at the start of the daemon and the generation number, src/resource/ubr.c. *)
From Verif Require Import Base Kvs_Model UbrKey_Model UbrDb_Model UbrDelta_Model UbrRec_Model UbrSync_Model.
Local Open Scope nat_scope.
Local Notation concat := List.concat (only parsing).

(* The value of a record as the store holds it (UbrRec_Model): member lists are vectors of strings with their NUL, everything
   else is merged into one block *)
Definition stored_value (vec : bool) (r : rec) : outcome stored :=
  let! h := header_prep (r_seq r) (r_flags r) (r_gen r) (r_owner r) in
  Ok (if vec then Vector (data_prep h (map (fun s => s ++ [NUL]) (r_data r))) else Scalar (concat (data_prep h (r_data r)))).
(* _build_cmd_kv_buffers for the command that saves the database (flags at src/resource/ubr.c:5731-5735: everything to the
   export buffer, persistent records only), src/resource/ubr.c:1366-1528.  keys is what the iteration of the store gives, vec
   which records are vectors.  The main process has no sync index, so no key has its prefix.  None: a vector in the udev
   namespace fails the command (1413-1420).  The flags written are those of the store, here only the vector flag. *)
Fixpoint dump (vec : bytes -> bool) (d : db) (keys : list bytes) : outcome (option (list wrec)) :=
  match keys with
  | [] => Ok (Some [])
  | k :: keys =>
    match recs d k with
    | None => dump vec d keys
    | Some r =>
      if negb (has (r_flags r) FL_PERSIST) then dump vec d keys
      else if ns_eqb (get_ns_from_key k) NS_UDEV && vec k then Ok None
      else
        let! v := stored_value (vec k) r in
        let! l := dump vec d keys in
        Ok (match l with Some l => Some (Wrec (if vec k then VAL_FL_VECTOR else 0%N) k v :: l) | None => None end)
    end
  end.
(* the contents of the file *)
Definition save (vec : bytes -> bool) (d : db) (keys : list bytes) : outcome (option bytes) :=
  let! l := dump vec d keys in Ok (match l with Some l => Some (write_message l) | None => None end).

(* KV_KEY_DB_GENERATION and KV_KEY_BOOT_ID, src/resource/ubr.c:83-84, in the global namespace *)
Definition core_key (core : bytes) : bytes :=
  canonicalize_key (do_compose_key (KeySpec None OP_SET None NS_GLOBAL None None None (Some core)) false).
Definition KEY_GENERATION : bytes := core_key (B "#DBGEN").
Definition KEY_BOOT_ID : bytes := core_key (B "#BOOTID").
(* value_flags_no_sync, src/resource/ubr.c:537 with DEFAULT_VALUE_FLAGS_CORE (107) *)
Definition FLAGS_NO_SYNC : N := N.ldiff (FL_SYNC_P + FL_RS + FL_RD) FL_SYNC.
(* memcpy of an uint16_t from the value; the value is in one piece *)
Definition number_of (r : rec) : outcome N := number_at 2 (concat (r_data r)).
(* _set_up_kv_store_generation, src/resource/ubr.c:7274-7306: sid_kvs_va_set without a callback always stores.  The number is
   an uint16_t. *)
Definition set_up_generation (d : db) : outcome (db * N) :=
  let! g := match recs d KEY_GENERATION with
            | Some r => let! n := number_of r in Ok ((n + 1) mod 65536)%N
            | None => Ok 1%N
            end in
  Ok (with_recs d (put (recs d) KEY_GENERATION (Some (Rec 0 (N.lor FLAGS_NO_SYNC FL_ALIGN) g OWNER_CORE [le 2 g]))), g).
(* _set_up_boot_id, src/resource/ubr.c:7307-7345, for the boot id the system gives (with its NUL) *)
Definition set_up_boot_id (d : db) (g : N) (boot_id : bytes) : db :=
  with_recs d (put (recs d) KEY_BOOT_ID (Some (Rec 0 FLAGS_NO_SYNC g OWNER_CORE [boot_id ++ [NUL]]))).
Definition empty_db : db := Db (fun _ => None) (fun _ => false).
(* _load_kv_store, src/resource/ubr.c:7144-7168, and its place in _init_common (7517-7519): its return value is not looked at.
   file is None when there is no database file. *)
Definition load_kv_store (file : option bytes) : outcome db :=
  match file with
  | None => Ok empty_db
  | Some f => let! (d, _) := sync_main_kv_store empty_db f in Ok d
  end.
Definition start (file : option bytes) (boot_id : bytes) : outcome (db * N) :=
  let! d := load_kv_store file in
  let! (d, g) := set_up_generation d in
  Ok (set_up_boot_id d g boot_id, g).
