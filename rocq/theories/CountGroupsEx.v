(** CountGroupsEx: examples of counting groups and series. *)
From Verif Require Import Base BaseFacts MoveScene MoveSceneSpec MoveSceneFacts CountGroups CountGroupsSpec CountGroupsFacts.

Definition x_names : list text := [str "A-X-GRP"; str "B-XX"; str "C-GRP"; str "D"].
Definition x_groups : list text := [str "GRP"; str "XX"; str "GRP"; str "D"].
Lemma ex_groups : groups_of x_names x_groups.
Proof. apply groups_is. vm_compute. reflexivity. Qed.
Lemma ex_count : start_count x_names false = [(str "D", 1); (str "XX", 1); (str "GRP", 2)] /\ start_count x_names true = [(str "GRP", 2); (str "D", 1); (str "XX", 1)].
Proof. split; vm_compute; reflexivity. Qed.
Lemma ex_series : series [str "a"; str "a"; str "b"; str "b"; str "b"; str "a"] = [(str "b", 3); (str "a", 1)].
Proof. vm_compute. reflexivity. Qed.
Lemma ex_together : together [str "b"; str "a"; str "a"] (str "a") /\ series [str "b"; str "a"; str "a"] = [(str "a", 2); (str "b", 1)].
Proof. split; [|vm_compute; reflexivity]. exists [str "b"], 2%nat, []. split; [reflexivity|]. split; [intros [X|[]]; discriminate X|intros []]. Qed.
(** the last line of a file without a line feed *)
Lemma ex_line : start_count [str "A-GRP" ++ [10]; str "B-GRP"] false = [(str "GRP", 1); (str "GRP" ++ [10], 1)].
Proof. vm_compute. reflexivity. Qed.
Lemma ex_lost : In (str "a", 1) (series [str "a"; str "a"; str "b"; str "a"]) /\ count [str "a"; str "a"; str "b"; str "a"] (str "a") = 3.
Proof. split; [vm_compute; left; reflexivity|vm_compute; reflexivity]. Qed.
