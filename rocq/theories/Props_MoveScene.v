(** C100: moving the releases of known groups. *)
From Verif Require Import Base Path MoveScene MoveSceneSpec MoveSceneFacts MoveSceneEx.

(** The group is what is after the last dash once all ".nzb" and then all ".srr" are taken out. *)
Theorem C100_group : forall r x, group_of r x <-> x = get_groupname r.
Proof. exact group_thm. Qed.
Print Assumptions C100_group.
Example C100_group_example : get_groupname (str "Some.Rel-x-GRP.nzb.srr") = str "GRP" /\ get_groupname (str "a.NZB") = str "a.NZB".
Proof. exact ex_group. Qed.
(** A name is taken just if it has no spaces, has capitals, also in its group, and a line of the list has the same group. *)
Theorem C100_scene : forall lines e, tested e && mem_text (get_groupname e) (get_groups lines) = true <-> scene lines e.
Proof. exact scene_thm. Qed.
Print Assumptions C100_scene.
Example C100_scene_example : scene x_list (str "Rel-GRP.nzb") /\ ~ scene x_list (str "Rel-P2P") /\ ~ scene x_list (str "My File-GRP").
Proof. exact ex_scene. Qed.
(** If nothing is in the way, all releases of the groups are at their destination, and nothing else is changed. *)
Theorem C100_main_partial : forall lines out dirs d, clear lines out dirs d -> exists d', main (Some lines) out dirs d = (d', None) /\
  (forall p q, moves lines out dirs p q -> d' p = None /\ d' q = d p) /\
  (forall x, (forall p q, moves lines out dirs p q -> x <> p /\ x <> q) -> d' x = d x).
Proof. exact main_thm. Qed.
Print Assumptions C100_main_partial.
Example C100_main_example : clear x_list [] x_dirs x_disk /\ let d := fst (main (Some x_list) [] x_dirs x_disk) in
  d (str "in/scene/Rel-GRP.nzb") = Some (mkItem false 1) /\ d (str "in/Rel-GRP.nzb") = None /\ d (str "in/scene/B-XX") = Some (mkItem true 2) /\ d (str "in/Rel-P2P") = Some (mkItem true 3).
Proof. exact (conj ex_clear ex_main). Qed.
(** What is no release of the groups and not at one of their destinations stays in any case, also when the program stops. *)
Theorem C100_keep : forall ls out dirs d x, (forall lines p q, ls = Some lines -> moves lines out dirs p q -> x <> p /\ x <> q) -> fst (main ls out dirs d) x = d x.
Proof. exact keep_thm. Qed.
Print Assumptions C100_keep.
Example C100_keep_example : let s := main (Some x_list) [] x_dirs x_there in snd s = Some OSError /\ fst s (str "in/B-XX") = Some (mkItem true 2).
Proof. exact ex_stop. Qed.
(** If the list is not there, nothing is moved; the program stops with an UnboundLocalError just if a name looks like a release. *)
Theorem C100_nolist : forall out dirs d, main None out dirs d = (d, Some UnboundLocal) /\ (exists dir names e, In (dir, Some names) dirs /\ In e names /\ looks e) \/
  main None out dirs d = (d, None) /\ (forall dir names e, In (dir, Some names) dirs -> In e names -> ~ looks e).
Proof. exact nolist_thm. Qed.
Print Assumptions C100_nolist.
Example C100_nolist_example : snd (main None [] x_dirs x_disk) = Some UnboundLocal.
Proof. exact ex_nolist. Qed.
(** A folder is never lost, whatever is at the destinations and also when the program stops. *)
Theorem C100_folder : forall ls out dirs d i, i_dir i = true -> (exists y, d y = Some i) -> exists y, fst (main ls out dirs d) y = Some i.
Proof. exact folder_thm. Qed.
Print Assumptions C100_folder.
Example C100_folder_example : i_dir (mkItem true 9) = true /\ (exists y, x_there y = Some (mkItem true 9)) /\ fst (main (Some x_list) [] x_dirs x_there) (str "in/scene/Rel-GRP.nzb") = Some (mkItem true 9).
Proof. exact ex_folder. Qed.
(** If the program does not stop, each release that is to be moved was there, or was moved there from another folder. *)
Theorem C100_done : forall lines out dirs d, snd (main (Some lines) out dirs d) = None -> forall p q, moves lines out dirs p q -> d p <> None \/ exists p', moves lines out dirs p' p.
Proof. exact done_thm. Qed.
Print Assumptions C100_done.
Example C100_done_example : snd (main (Some x_list) [] x_dirs x_disk) = None /\ snd (main (Some x_list) [] x_dirs (fun _ => None)) = Some FileNotFound.
Proof. exact ex_done. Qed.
(** no release is lost: false for files with the same name in two folders, the second one overwrites the first one *)
Theorem C100_lost_refuted : exists d, let s := main (Some [str "O-GRP"]) (str "o") x_twodirs d in
  snd s = None /\ d (str "a/R-GRP.srr") = Some (mkItem false 1) /\ fst s (str "o/R-GRP.srr") = Some (mkItem false 2) /\ fst s (str "a/R-GRP.srr") = None.
Proof. exact (ex_intro _ x_two (conj (proj1 ex_lost) (conj eq_refl (proj2 ex_lost)))). Qed.
Print Assumptions C100_lost_refuted.
(** a list that is not there is told and nothing else happens: false, the program stops with an UnboundLocalError *)
Theorem C100_list_refuted : exists dirs d, snd (main None [] dirs d) = Some UnboundLocal.
Proof. exact (ex_intro _ x_dirs (ex_intro _ x_disk ex_nolist)). Qed.
Print Assumptions C100_list_refuted.
(** all releases of the groups of the list are moved: false for groups without capitals *)
Theorem C100_small_refuted : exists e, tested e = false /\ mem_text (get_groupname e) (get_groups [e]) = true.
Proof. exact (ex_intro _ (str "Rel-low") ex_small). Qed.
Print Assumptions C100_small_refuted.
