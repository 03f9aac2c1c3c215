(* Common vocabulary for all component models. *)
From Coq Require Export List Arith NArith ZArith Lia Bool Ascii String.
From Coq Require Export ZifyBool ZifyNat ZifyN.
Export ListNotations.
Open Scope list_scope.
Notation length := List.length.

(* Result of a modelled C computation: [UB] is undefined behaviour (out-of-bounds access, use of a dangling
   or null pointer, division by zero, reading an indeterminate value); it is a distinct outcome that the
   theorems must exclude or exhibit. *)
Inductive outcome (A : Type) : Type :=
| Ok (a : A)
| UB.
Arguments Ok {A} a.
Arguments UB {A}.

Definition obind {A B} (x : outcome A) (f : A -> outcome B) : outcome B :=
  match x with Ok a => f a | UB => UB end.
Notation "'let!' x ':=' e 'in' k" := (obind e (fun x => k))
  (at level 200, x pattern, e at level 100, k at level 200, right associativity).

Definition is_ub {A} (x : outcome A) : bool := match x with UB => true | Ok _ => false end.

(* Byte strings: a C [char]/[unsigned char] is an [ascii]; a memory block or string is a list of them. *)
Notation byte := ascii (only parsing).
Notation bytes := (list ascii) (only parsing).
Definition B (s : string) : bytes := list_ascii_of_string s.
Definition NUL : byte := zero.

Definition byteN (c : byte) : N := N_of_ascii c.

(* errno values used by the code (include/uapi/asm-generic/errno-base.h, errno.h), returned negated. *)
Definition EPERM : Z := 1.
Definition ENOENT : Z := 2.
Definition EINTR : Z := 4.
Definition EIO : Z := 5.
Definition EAGAIN : Z := 11.
Definition ENOMEM : Z := 12.
Definition EACCES : Z := 13.
Definition EBUSY : Z := 16.
Definition EEXIST : Z := 17.
Definition EINVAL : Z := 22.
Definition ERANGE : Z := 34.
Definition ENOSYS : Z := 38.
Definition EBADE : Z := 52.
Definition EBADRQC : Z := 56.
Definition EBADMSG : Z := 74.
Definition ENOTSUP : Z := 95.
Definition ENOBUFS : Z := 105.
Definition EKEYREJECTED : Z := 129.

Definition wrap64 (x : N) : N := (x mod 2 ^ 64)%N.
Definition wrap32 (x : N) : N := (x mod 2 ^ 32)%N.

(* Replace position [i] of a list (no effect past the end; callers check bounds first). *)
Fixpoint list_set {A} (l : list A) (i : nat) (x : A) : list A :=
  match l, i with
  | [], _ => []
  | _ :: t, O => x :: t
  | h :: t, S j => h :: list_set t j x
  end.

Lemma list_set_length {A} (l : list A) i x : List.length (list_set l i x) = List.length l.
Proof. revert i; induction l as [|h t IH]; intros [|i]; simpl; auto. Qed.

Lemma nth_error_list_set {A} (l : list A) i j x :
  nth_error (list_set l i x) j =
  if (i =? j)%nat then (if (i <? List.length l)%nat then Some x else None) else nth_error l j.
Proof.
  revert i j; induction l as [|h t IH]; intros i j.
  - destruct i, j; simpl; auto; destruct (Nat.eqb_spec i j); auto.
  - destruct i as [|i], j as [|j]; simpl; auto.
    rewrite IH. reflexivity.
Qed.

Lemma filter_length_le {A} (f : A -> bool) (l : list A) :
  (List.length (List.filter f l) <= List.length l)%nat.
Proof. induction l as [|h t IH]; simpl; auto. destruct (f h); simpl; lia. Qed.

Definition ENODATA : Z := 61.
Definition EXFULL : Z := 54.
Definition EOVERFLOW : Z := 75.
