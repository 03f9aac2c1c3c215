From Verif Require Import Base List_Model SrvLnk_Model SrvLnk_Spec SrvLnk_Proofs2 SrvLnk_Proofs3.
Local Open Scope nat_scope.

(* Any history of creating, destroying, adding, removing and cloning links and groups: each group has its members in the order they
   were added, each link is in the group it was put in and in no other, and what was destroyed is gone from every list *)
Theorem link_groups_partial : forall os w, lcalls no_world os w -> exists F, forall fuel, F <= fuel -> exists s, steps fuel no_store os = Ok (Some s) /\ shows s w.
Proof. exact history_lemma. Qed.
Print Assumptions link_groups_partial.

(* Removing a link says whether it was in the group *)
Theorem link_removed : forall os w g a, lcalls no_world os w -> w_links w a <> None -> exists F, forall fuel, F <= fuel -> exists s s' r, steps fuel no_store os = Ok (Some s) /\ grp_del s g a = Ok (s', r)
  /\ (grouped w a g -> r = 0%Z) /\ (~ grouped w a g -> r = (- EINVAL)%Z).
Proof. exact del_result_lemma. Qed.
Print Assumptions link_removed.

(* A clone fails only for want of memory *)
Theorem group_cloned : forall os w g c cn n l places, lcalls no_world os w -> w_grps w g = Some (n, l) -> NoDup (c :: places) -> (forall p, In p (c :: places) -> ~ live w p) ->
  exists F, forall fuel, F <= fuel -> exists s s' b, steps fuel no_store os = Ok (Some s) /\ grp_clone fuel s g c cn places = Ok (Some (s', b)) /\ (b = true <-> length (filter (cloneable w) l) <= length places).
Proof. exact clone_result_lemma. Qed.
Print Assumptions group_cloned.

(* Merging a group that has members into another never works: the members stay reachable from the source, whose destruction takes
   them out of the destination and goes on to the destination itself as if it were a link *)
Theorem group_merge_refuted : forall os w d c n m l x l', lcalls no_world os w -> w_grps w d = Some (n, l) -> w_grps w c = Some (m, x :: l') -> d <> c ->
  exists F, forall fuel, F <= fuel -> steps fuel no_store (os ++ [GMerge d c]) = UB.
Proof. exact merge_refuted_lemma. Qed.
Print Assumptions group_merge_refuted.

(* A notification reaches each member of a group in turn, but for a format with arguments that is used more than once *)
Theorem group_notified_partial : forall os w g n l notif msg, lcalls no_world os w -> w_grps w g = Some (n, l) -> good_lines msg ->
  exists atts, all_attrs w l atts /\ forall args, args = false \/ total_formats notif msg atts <= 1 ->
  exists F, forall fuel, F <= fuel -> exists s, steps fuel no_store os = Ok (Some s) /\ grp_notify fuel s g notif (msg_bytes msg) args = Ok (Some (flat_map (effects notif msg) atts)).
Proof. exact notified_lemma. Qed.
Print Assumptions group_notified_partial.

(* The arguments of the format are taken by the first link that formats the message, and are used again by the next one *)
Theorem group_notified_refuted : forall os w g n l atts notif msg, lcalls no_world os w -> w_grps w g = Some (n, l) -> good_lines msg -> all_attrs w l atts -> 2 <= total_formats notif msg atts ->
  exists F, forall fuel, F <= fuel -> exists s, steps fuel no_store os = Ok (Some s) /\ grp_notify fuel s g notif (msg_bytes msg) true = UB.
Proof. exact notified_refuted_lemma. Qed.
Print Assumptions group_notified_refuted.

(* Links 5 (cloneable, told of READY and MESSAGE, a log) and 7 (systemd) in the group 6, which is cloned to 8 with a clone of 5 at 9;
   then 5 is taken out, the clone destroyed with its member and the link 7 destroyed in its group *)
Definition log_link : attrs := (B "log", 2, 264%N, 1%N, 3).
Definition sys_link : attrs := (B "systemd", 1, 10%N, 0%N, 0).
Definition some_calls : list lop :=
  [LCreate 5 (B "log") 2 264 1 3; GCreate 6 (B "links"); GAdd 6 5; LCreate 7 (B "systemd") 1 10 0 0; GAdd 6 7].
Definition more_calls : list lop := [GClone 6 8 (B "clone") [9; 10]; GDel 6 5; GDel 8 5; GDestroyWith 8; LDestroy 7].
Definition two_members : world := World (put (fun _ => None) 6 (Some (B "links", [5; 7]))) (put (put (fun _ => None) 5 (Some log_link)) 7 (Some sys_link)).
Example some_calls_are : lcalls no_world some_calls two_members.
Proof. exact some_calls_lemma. Qed.
Example more_calls_are : exists w, lcalls two_members more_calls w /\ w_grps w 6 = Some (B "links", []) /\ w_links w 5 = Some log_link /\ w_links w 7 = None /\ w_links w 9 = None.
Proof. exact more_calls_lemma. Qed.
Example merge_is : exists os w, lcalls no_world os w /\ w_grps w 6 = Some (B "links", [5; 7]) /\ w_grps w 8 = Some (B "other", []).
Proof. exact merge_case_lemma. Qed.
Example notified_is : flat_map (effects 8 None) [log_link; sys_link] = [Logged 3 (B "| READY |"); Systemd (B "READY=1" ++ [LF]) false] /\ total_formats 8 None [log_link; sys_link] = 0
  /\ flat_map (effects 2 (Some [B "STATUS=up"])) [sys_link] = [Systemd (B "STATUS=up" ++ [LF]) false] /\ total_formats 256 (Some [B "a"]) [log_link; log_link] = 2.
Proof. repeat split. Qed.
