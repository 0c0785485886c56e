(** MoveSceneEx: examples of moving releases. *)
From Verif Require Import Base BaseFacts Path MoveScene MoveSceneSpec MoveSceneFacts.

Definition nl (s : text) : text := s ++ [10].
Definition x_list : list text := [nl (str "Old.Rel-GRP"); nl (str "A-XX"); nl (str "b-low")].
Definition x_names : list text := [str "Rel-GRP.nzb"; str "My File-GRP"; str "Rel-P2P"; str "B-XX"; str "B-low"].
Definition x_dirs : list (text * option (list text)) := [(str "in", Some x_names); (str "f", None)].
Definition x_disk : disk := fun p =>
  if teqb p (str "in/Rel-GRP.nzb") then Some (mkItem false 1)
  else if teqb p (str "in/B-XX") then Some (mkItem true 2)
  else if teqb p (str "in/Rel-P2P") then Some (mkItem true 3)
  else None.
Lemma ex_group : get_groupname (str "Some.Rel-x-GRP.nzb.srr") = str "GRP" /\ get_groupname (str "a.NZB") = str "a.NZB".
Proof. split; vm_compute; reflexivity. Qed.
Lemma ex_scene : scene x_list (str "Rel-GRP.nzb") /\ ~ scene x_list (str "Rel-P2P") /\ ~ scene x_list (str "My File-GRP").
Proof. split; [|split]; rewrite <- scene_thm; vm_compute; [reflexivity|discriminate|discriminate]. Qed.
Lemma ex_main : let d := fst (main (Some x_list) [] x_dirs x_disk) in
  d (str "in/scene/Rel-GRP.nzb") = Some (mkItem false 1) /\ d (str "in/Rel-GRP.nzb") = None /\ d (str "in/scene/B-XX") = Some (mkItem true 2) /\ d (str "in/Rel-P2P") = Some (mkItem true 3).
Proof. cbv zeta. split; [|split; [|split]]; vm_compute; reflexivity. Qed.
Lemma ex_moves p q : moves x_list [] x_dirs p q -> (p = str "in/Rel-GRP.nzb" /\ q = str "in/scene/Rel-GRP.nzb") \/ (p = str "in/B-XX" /\ q = str "in/scene/B-XX").
Proof.
  intros (dir & names & e & I & J & S0 & -> & [(_ & ->)|(X & _)]); [|now destruct X]. destruct I as [I|[I|[]]]; [|discriminate I]. apply pair_equal_spec in I. destruct I as [<- I]. injection I as <-. apply scene_thm in S0.
  destruct J as [<-|[<-|[<-|[<-|[<-|[]]]]]]; vm_compute in S0; try discriminate S0; [left|right]; split; vm_compute; reflexivity.
Qed.
Lemma ex_clear : clear x_list [] x_dirs x_disk.
Proof.
  split; [|split].
  - assert (E : paths x_dirs = map (fun n => str "in/" ++ n) x_names) by (vm_compute; reflexivity). rewrite E. vm_compute. repeat (constructor; [cbn; intuition discriminate|]). constructor.
  - intros p q M. destruct (ex_moves p q M) as [(-> & ->)|(-> & ->)]; split; vm_compute; [discriminate|reflexivity|discriminate|reflexivity].
  - intros p q p' q' M M' N0. destruct (ex_moves p q M) as [(-> & ->)|(-> & ->)], (ex_moves p' q' M') as [(-> & ->)|(-> & ->)]; try (now destruct N0); vm_compute; discriminate.
Qed.
(** the same name in two folders, moved to one *)
Definition x_two : disk := fun p => if teqb p (str "a/R-GRP.srr") then Some (mkItem false 1) else if teqb p (str "b/R-GRP.srr") then Some (mkItem false 2) else None.
Definition x_twodirs : list (text * option (list text)) := [(str "a", Some [str "R-GRP.srr"]); (str "b", Some [str "R-GRP.srr"])].
Lemma ex_lost : let s := main (Some [str "O-GRP"]) (str "o") x_twodirs x_two in
  snd s = None /\ fst s (str "o/R-GRP.srr") = Some (mkItem false 2) /\ fst s (str "a/R-GRP.srr") = None.
Proof. cbv zeta. split; [|split]; vm_compute; reflexivity. Qed.
Lemma ex_nolist : snd (main None [] x_dirs x_disk) = Some UnboundLocal.
Proof. vm_compute. reflexivity. Qed.
Lemma ex_small : tested (str "Rel-low") = false /\ mem_text (get_groupname (str "Rel-low")) (get_groups [str "Rel-low"]) = true.
Proof. split; vm_compute; reflexivity. Qed.
(** a folder that is at the destination stops the program *)
Definition x_there : disk := fun p => if teqb p (str "in/scene/Rel-GRP.nzb") then Some (mkItem true 9) else x_disk p.
Lemma ex_stop : let s := main (Some x_list) [] x_dirs x_there in snd s = Some OSError /\ fst s (str "in/B-XX") = Some (mkItem true 2).
Proof. cbv zeta. split; vm_compute; reflexivity. Qed.
Lemma ex_folder : i_dir (mkItem true 9) = true /\ (exists y, x_there y = Some (mkItem true 9)) /\ fst (main (Some x_list) [] x_dirs x_there) (str "in/scene/Rel-GRP.nzb") = Some (mkItem true 9).
Proof. split; [reflexivity|]. split; [exists (str "in/scene/Rel-GRP.nzb")|]; vm_compute; reflexivity. Qed.
Lemma ex_done : snd (main (Some x_list) [] x_dirs x_disk) = None /\ snd (main (Some x_list) [] x_dirs (fun _ => None)) = Some FileNotFound.
Proof. split; vm_compute; reflexivity. Qed.
