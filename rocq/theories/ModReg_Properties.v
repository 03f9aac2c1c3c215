(* Property C92: a registry holds the modules it was told to load, in the order of their priorities, under their names *)
From Verif Require Import Base UtilStr_Model UtilStr_Spec ModReg_Model ModReg_Spec ModReg_Proofs.
From Coq Require Import Permutation.
Local Open Scope nat_scope.

Definition empty (b d : bytes) (p s : option bytes) (ps : list (bytes * N)) : reg := Reg b d p s ps [] 0.

(* Order and names after any history; good_op: no name of a module has a slash, libraries have an init function and a list of aliases that
   ends *)
Theorem registry_ordered b d p s ps ops r : Forall (good_op (empty b d p s ps)) ops -> history (empty b d p s ps) ops = Ok r ->
  in_order (g_mods r) /\ Forall (fun m => no_slash (m_name m) /\ m_full m = b ++ B "/" ++ m_name m /\ length (m_syms m) = length ps) (g_mods r).
Proof. exact (history_lemma b d p s ps ops r). Qed.
Print Assumptions registry_ordered.

Theorem module_found_first b d p s ps ops r name : Forall (good_op (empty b d p s ps)) ops -> history (empty b d p s ps) ops = Ok r -> name <> [] ->
  exists o, get_mod r name = Ok o /\ match o with
  | Some m => exists pre post, g_mods r = pre ++ m :: post /\ called m name /\ forall x, In x pre -> ~ called x name
  | None => forall x, In x (g_mods r) -> ~ called x name
  end.
Proof. exact (get_lemma b d p s ps ops r name). Qed.
Print Assumptions module_found_first.

(* A module is loaded if none is called so and its library can be loaded.  Missing: names with a slash, see below *)
Theorem module_loaded_partial fs b d p s ps ops r name : Forall (good_op (empty b d p s ps)) ops -> history (empty b d p s ps) ops = Ok r ->
  good_fs fs -> name <> [] -> no_slash name -> short_path r name -> exists r' o, load_mod fs r name = Ok (r', o) /\ match o with
  | Some m => In m (g_mods r') /\ called m name /\ ((In m (g_mods r) /\ r' = r)
       \/ ((forall x, In x (g_mods r) -> ~ called x name) /\ Permutation (g_mods r') (m :: g_mods r) /\ m_name m = name /\ m_full m = b ++ B "/" ++ name
           /\ exists l, fs (path_of r name) = Some l /\ loadable ps l /\ Forall2 (fun p v => symbol_value l (fst p) (snd p) v) ps (m_syms m)
              /\ m_prio m = match l_prio l with Some p => p | None => 0%Z end
              /\ (forall a, m_aliases m = Some a <-> l_aliases l = Some (Some a))))
  | None => g_mods r' = g_mods r /\ (forall x, In x (g_mods r) -> ~ called x name) /\ (forall l, fs (path_of r name) = Some l -> ~ loadable ps l)
  end.
Proof. exact (load_mod_lemma fs b d p s ps ops r name). Qed.
Print Assumptions module_loaded_partial.

Theorem module_loaded_once_partial fs fs' b d p s ps ops r name r1 m : Forall (good_op (empty b d p s ps)) ops -> history (empty b d p s ps) ops = Ok r ->
  good_fs fs -> no_slash name -> load_mod fs r name = Ok (r1, Some m) -> load_mod fs' r1 name = Ok (r1, Some m).
Proof. exact (again_lemma fs fs' b d p s ps ops r name r1 m). Qed.
Print Assumptions module_loaded_once_partial.

Theorem directory_loaded fs b d p s ps ops r files : Forall (good_op (empty b d p s ps)) ops -> history (empty b d p s ps) ops = Ok r -> good_fs fs ->
  Forall (good_file r) files -> exists r' code names, load_mods fs r (inl files) = Ok (r', code) /\ gives fs r files names
    /\ Permutation (map m_name (g_mods r')) (names ++ map m_name (g_mods r))
    /\ ((code = 0%Z /\ exists f n, In f files /\ file_of r n f) \/ (code = (- 123)%Z /\ forall f n, In f files -> ~ file_of r n f)).
Proof. exact (dir_lemma fs b d p s ps ops r files). Qed.
Print Assumptions directory_loaded.

Theorem module_unloaded b d p s ps ops r id : Forall (good_op (empty b d p s ps)) ops -> history (empty b d p s ps) ops = Ok r ->
  (forall m, In m (g_mods r) -> m_exit m <> None) -> exists r', unload_mod r id = Ok r' /\ forall m, In m (g_mods r') <-> In m (g_mods r) /\ m_id m <> id.
Proof. exact (unload_lemma b d p s ps ops r id). Qed.
Print Assumptions module_unloaded.

(* Examples *)
Definition ex_lib (prio : option Z) (aliases : option bytes) : library :=
  Library (fun n => if list_eq_dec ascii_dec n (B "sid_mod_init") then Some (1, Some 11) else if list_eq_dec ascii_dec n (B "sid_mod_exit") then Some (2, Some 12)
                    else if list_eq_dec ascii_dec n (B "scan") then Some (3, Some 13) else None) prio (option_map Some aliases) 0.
Definition ex_fs : bytes -> option library := fun path =>
  if list_eq_dec ascii_dec path (B "/lib/a.so") then Some (ex_lib None (Some (B "x" ++ [NUL] ++ B "yy" ++ [NUL; NUL])))
  else if list_eq_dec ascii_dec path (B "/lib/b.so") then Some (ex_lib (Some (- 5)%Z) None)
  else if list_eq_dec ascii_dec path (B "/lib/yy.so") then Some (ex_lib (Some 0%Z) None) else None.
Definition ex_reg : reg := empty (B "/type") (B "/lib") None (Some (B ".so")) [(B "scan", 4%N); (B "other", 5%N); (B "scan", 2%N)].
Lemma ex_aliases : aliases_are (B "x" ++ [NUL] ++ B "yy" ++ [NUL; NUL]) [B "x"; B "yy"].
Proof.
  split.
  - repeat constructor; try discriminate; cbn; intros H; decompose [or] H; try discriminate; contradiction.
  - exists []. reflexivity.
Qed.
Lemma ex_proper p a : proper (ex_lib p a).
Proof. intros x H. discriminate H. Qed.
Example ex_good_fs : good_fs ex_fs.
Proof.
  intros p l. unfold ex_fs. destruct (list_eq_dec ascii_dec p (B "/lib/a.so")).
  - intros [= <-]. split; [apply ex_proper|]. intros a [= <-]. exists [B "x"; B "yy"]. exact ex_aliases.
  - destruct (list_eq_dec ascii_dec p (B "/lib/b.so")); [intros [= <-]; split; [apply ex_proper|discriminate]|].
    destruct (list_eq_dec ascii_dec p (B "/lib/yy.so")); [intros [= <-]; split; [apply ex_proper|discriminate]|discriminate].
Qed.
Definition names (o : outcome reg) : option (list (bytes * list (option nat))) :=
  match o with Ok r => Some (map (fun m => (m_full m, m_syms m)) (g_mods r)) | UB => None end.
Example ex_history : names (history ex_reg [LoadMod ex_fs (B "a"); LoadMod ex_fs (B "b"); LoadMod ex_fs (B "none"); LoadMod ex_fs (B "x")])
  = Some [(B "/type/b", [Some 13; None; Some 3]); (B "/type/a", [Some 13; None; Some 3])].
Proof. vm_compute. reflexivity. Qed.
Example ex_history_good : Forall (good_op ex_reg) [LoadMod ex_fs (B "a"); LoadMod ex_fs (B "b"); LoadMod ex_fs (B "none"); LoadMod ex_fs (B "x")].
Proof.
  repeat (apply Forall_cons; [split; [exact ex_good_fs|intros H; cbn in H; decompose [or] H; try discriminate; contradiction]|]). apply Forall_nil.
Qed.
Example ex_found : match history ex_reg [LoadMod ex_fs (B "a"); LoadMod ex_fs (B "b")] with
  | Ok r => match get_mod r (B "yy"), get_mod r (B "zz") with Ok (Some m), Ok None => m_name m = B "a" | _, _ => False end | UB => False end.
Proof. vm_compute. reflexivity. Qed.
Example ex_directory : match load_mods ex_fs ex_reg (inl [B "."; B ".."; B "a.so"; B "b.so"; B "none.so"; B "README"]) with
  | Ok (r, c) => map m_name (g_mods r) = [B "b"; B "a"] /\ c = 0%Z | UB => False end.
Proof. vm_compute. split; reflexivity. Qed.
Example ex_gives : gives ex_fs ex_reg [B "."; B "a.so"; B "none.so"; B "README"] [B "a"].
Proof.
  assert (S : forall n f, file_of ex_reg n f -> exists s, f = n ++ s /\ map lower s = B ".so" /\ forall t, f <> "."%char :: t).
  { intros n f (p & s & -> & P & Q & D). unfold same_letters, same in P, Q. cbn in P. destruct p; [|discriminate P]. exists s. split; [reflexivity|]. split; [exact Q|exact D]. }
  constructor. { intros n H. apply S in H as (s & _ & _ & D). exact (D [] eq_refl). }
  apply (gives_module ex_fs ex_reg (B "a.so") (B "a") (ex_lib None (Some (B "x" ++ [NUL] ++ B "yy" ++ [NUL; NUL])))).
  - exists [], (B ".so"). split; [reflexivity|]. split; [reflexivity|]. split; [reflexivity|discriminate].
  - vm_compute. reflexivity.
  - split; [eexists; reflexivity|]. split; [eexists; reflexivity|]. split; [|cbn; lia]. intros q [<-|[<-|[<-|[]]]] H; try discriminate H. eexists; reflexivity.
  - apply (gives_failing ex_fs ex_reg (B "none.so") (B "none")).
    + exists [], (B ".so"). split; [reflexivity|]. split; [reflexivity|]. split; [reflexivity|discriminate].
    + intros l H. vm_compute in H. discriminate H.
    + constructor; [|constructor]. intros n H. apply S in H as (s & E & L & _).
      assert (length s = 3) by (apply (f_equal (@length _)) in L; rewrite map_length in L; exact L).
      assert (LN : length n = 3) by (apply (f_equal (@length _)) in E; rewrite app_length in E; cbn [B list_ascii_of_string length] in E; lia).
      destruct n as [|n0 [|n1 [|n2 [|n3 n]]]]; try discriminate LN. cbn in E. injection E as _ _ _ <-. discriminate L.
Qed.

(* Findings *)
(* loading a directory does not look whether a module is there already *)
Theorem directory_loaded_once_refuted : match history ex_reg [LoadMod ex_fs (B "a"); LoadMods ex_fs (inl [B "a.so"])] with
  | Ok r => map m_name (g_mods r) = [B "a"; B "a"] | UB => False end.
Proof. vm_compute. reflexivity. Qed.
Print Assumptions directory_loaded_once_refuted.
(* a module called by a path is loaded again at each call *)
Theorem module_loaded_once_refuted : match history ex_reg [LoadMod ex_fs (B "t/a"); LoadMod ex_fs (B "t/a")] with
  | Ok r => map m_full (g_mods r) = [B "/type/t/a"; B "/type/t/a"] | UB => False end.
Proof. vm_compute. reflexivity. Qed.
Print Assumptions module_loaded_once_refuted.
(* a module cannot be loaded by name if another has the name as an alias; loaded before, or from a directory, it keeps the name *)
Theorem alias_unique_refuted :
  match history ex_reg [LoadMod ex_fs (B "a"); LoadMod ex_fs (B "yy")] with Ok r => map m_name (g_mods r) = [B "a"] | UB => False end
  /\ match history ex_reg [LoadMod ex_fs (B "yy"); LoadMod ex_fs (B "a")] with Ok r => map m_name (g_mods r) = [B "yy"; B "a"] | UB => False end.
Proof. vm_compute. split; reflexivity. Qed.
Print Assumptions alias_unique_refuted.
(* the suffix of files is compared ignoring case, but the file opened has the suffix as configured *)
Theorem listed_file_opened_refuted : exists fs, fs (B "/lib/a.SO") <> None /\ match load_mods fs ex_reg (inl [B "a.SO"]) with
  | Ok (r, c) => g_mods r = [] /\ c = 0%Z | UB => False end.
Proof.
  exists (fun p => if list_eq_dec ascii_dec p (B "/lib/a.SO") then Some (ex_lib None None) else None). split; [discriminate|]. vm_compute. split; reflexivity.
Qed.
Print Assumptions listed_file_opened_refuted.
(* a module whose init symbol holds NULL is not refused *)
Theorem init_function_checked_refuted : exists l, has l (B "sid_mod_init") /\ load_mod (fun _ => Some l) ex_reg (B "a") = UB.
Proof.
  exists (Library (fun n => Some (1, if list_eq_dec ascii_dec n (B "sid_mod_init") then None else Some 1)) None None 0).
  split; [eexists; reflexivity|]. vm_compute. reflexivity.
Qed.
Print Assumptions init_function_checked_refuted.
