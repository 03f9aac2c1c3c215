(* Specification of the hash table: for every key the list of its entries. *)
From Verif Require Import Base Hash_Model.
Local Open Scope N_scope.

Definition entry := (N * N)%type.            (* data pointer, data length *)
Definition mmap := bytes -> list entry.

Definition mm_set (m : mmap) (k : bytes) (l : list entry) : mmap :=
  fun k' => if bytes_eqb k k' then l else m k'.

(* remove the first entry satisfying p *)
Fixpoint remove_first (p : entry -> bool) (l : list entry) : list entry :=
  match l with [] => [] | e :: r => if p e then r else e :: remove_first p r end.

Definition same_data (memeq : N -> N -> N -> bool) (d l : N) (e : entry) : bool :=
  negb (fst e =? 0) && (snd e =? l) && memeq d (fst e) l.

(* One operation.  The only surprise is HAdd on a present key: the new data pointer is stored with the old length. *)
Definition mm_step memeq (m : mmap) (o : hop) : mmap :=
  match o with
  | HAdd k d l =>
      match m k with
      | [] => mm_set m k [(d, l)]
      | (_, l0) :: r => mm_set m k ((d, l0) :: r)
      end
  | HDel k => mm_set m k (tl (m k))
  | HUpdate k cb =>
      match cb (hd_error (m k)) with
      | (HWRITE, e) => mm_set m k (e :: tl (m k))
      | (HREMOVE, _) => mm_set m k (tl (m k))
      | (HSKIP, _) => m
      end
  | HWipe => fun _ => []
  | HAddMulti k d l => mm_set m k ((d, l) :: m k)
  | HDelData k d l => mm_set m k (remove_first (same_data memeq d l) (m k))
  end.

Definition mm_run memeq (ops : list hop) : mmap := fold_left (mm_step memeq) ops (fun _ => []).

(* plain map view for histories without multi-value insertion *)
Definition pmap := bytes -> option N.
Definition unique_op (o : hop) : bool :=
  match o with HAddMulti _ _ _ => false | HDelData _ _ _ => false | _ => true end.

(* Ideal map for unique-key histories: the pair stored together is the pair returned. *)
Definition imap := bytes -> option entry.
Definition im_set (m : imap) (k : bytes) (e : option entry) : imap := fun k' => if bytes_eqb k k' then e else m k'.
Definition im_step (m : imap) (o : hop) : imap :=
  match o with
  | HAdd k d l => im_set m k (Some (d, l))
  | HDel k => im_set m k None
  | HUpdate k cb =>
      match cb (m k) with
      | (HWRITE, e) => im_set m k (Some e)
      | (HREMOVE, _) => im_set m k None
      | (HSKIP, _) => m
      end
  | HWipe => fun _ => None
  | _ => m
  end.
Definition im_run (ops : list hop) : imap := fold_left im_step ops (fun _ => None).

(* Every HAdd in the history either adds a new key or passes the length already stored. *)
Fixpoint adds_keep_len (m : imap) (ops : list hop) : bool :=
  match ops with
  | [] => true
  | o :: r =>
      match o with
      | HAdd k _ l => match m k with Some (_, l0) => l =? l0 | None => true end
      | _ => true
      end && adds_keep_len (im_step m o) r
  end.
