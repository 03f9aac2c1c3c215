(* The table of drivers as the kernel prints it, and what is looked up in it *)
From Verif Require Import Base UtilStr_Spec ModName_Model.
Local Open Scope nat_scope.

Definition LF : byte := ascii_of_nat 10.
Definition blank (c : byte) : Prop := c = " "%char.
Definition printable (c : byte) : Prop := 32 <= nat_of_ascii c <= 126.
(* A line of the section of block devices: blanks, the number, a blank, the name, the line end *)
Record driver := Driver { dr_pad : nat; dr_digits : bytes; dr_name : bytes }.
Definition driver_line (e : driver) : bytes := repeat " "%char (dr_pad e) ++ dr_digits e ++ " "%char :: dr_name e ++ [LF].
Definition dr_major (e : driver) : Z := Z.of_N (dec_value (dr_digits e)).
Definition good_driver (e : driver) : Prop :=
  dr_digits e <> [] /\ (forall c, In c (dr_digits e) -> digit c) /\ (0 < dr_major e < 2 ^ 31)%Z
  /\ (forall c, In c (dr_name e) -> printable c) /\ length (driver_line e) <= 79.
(* What is before the section: lines that do not begin with a B *)
Definition good_line (l : bytes) : Prop := ~ In LF l /\ length l <= 78 /\ (forall t, l <> "B"%char :: t).
Definition table (before : list bytes) (drivers : list driver) : bytes :=
  List.concat (map (fun l => l ++ [LF]) before) ++ B "Block devices:" ++ [LF] ++ List.concat (map driver_line drivers).
Definition good_table (before : list bytes) (drivers : list driver) : Prop := Forall good_line before /\ Forall good_driver drivers.
(* The first driver with the number *)
Inductive listed (m : Z) : list driver -> bytes -> Prop :=
| listed_here e l : dr_major e = m -> listed m (e :: l) (dr_name e)
| listed_later e l n : dr_major e <> m -> listed m l n -> listed m (e :: l) n.
(* the name with every '-' replaced by '_' *)
Definition module_name (n s : bytes) : Prop := length s = length n /\ forall i, i < length n ->
  (nth i n LF = "-"%char -> nth i s LF = "_"%char) /\ (nth i n LF <> "-"%char -> nth i s LF = nth i n LF).
