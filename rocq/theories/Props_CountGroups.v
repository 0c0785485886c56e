(** C101: counting groups and series. *)
From Verif Require Import Base MoveScene MoveSceneSpec CountGroups CountGroupsSpec CountGroupsFacts CountGroupsEx.

(** count_groups prints each group once with the number of its releases, ordered by that number. *)
Theorem C101_groups : forall names gs r, groups_of names gs ->
  NoDup (map fst (start_count names r)) /\ in_order r (start_count names r) /\ forall k n, In (k, n) (start_count names r) <-> In k gs /\ n = count gs k.
Proof. exact count_thm. Qed.
Print Assumptions C101_groups.
Example C101_groups_example : groups_of x_names x_groups /\ start_count x_names false = [(str "D", 1); (str "XX", 1); (str "GRP", 2)] /\ start_count x_names true = [(str "GRP", 2); (str "D", 1); (str "XX", 1)].
Proof. exact (conj ex_groups ex_count). Qed.
(** group_series prints each series once, largest number first; the number is that of the last run of the series in the list. *)
Theorem C101_series : forall l, NoDup (map fst (series l)) /\ in_order true (series l) /\ forall k n, In (k, n) (series l) <-> last_run l k n.
Proof. exact series_thm. Qed.
Print Assumptions C101_series.
Example C101_series_example : series [str "a"; str "a"; str "b"; str "b"; str "b"; str "a"] = [(str "b", 3); (str "a", 1)].
Proof. exact ex_series. Qed.
(** It is the number of the releases of a series if they are all together in the list.  Missing for all lists, where it is false. *)
Theorem C101_together_partial : forall l k n, together l k -> In (k, n) (series l) <-> In k l /\ n = count l k.
Proof. exact series_count. Qed.
Print Assumptions C101_together_partial.
Example C101_together_example : together [str "b"; str "a"; str "a"] (str "a") /\ series [str "b"; str "a"; str "a"] = [(str "a", 2); (str "b", 1)].
Proof. exact ex_together. Qed.
(** group_series counts all releases of a series: false if the list is not sorted *)
Theorem C101_unsorted_refuted : exists l k, In (k, 1) (series l) /\ count l k = 3.
Proof. exact (ex_intro _ [str "a"; str "a"; str "b"; str "a"] (ex_intro _ (str "a") ex_lost)). Qed.
Print Assumptions C101_unsorted_refuted.
(** count_groups counts the releases of a group in a text file together: false for a last line without line feed *)
Theorem C101_line_refuted : exists a b, a = str "A-GRP" ++ [10] /\ b = str "B-GRP" /\ start_count [a; b] false = [(str "GRP", 1); (str "GRP" ++ [10], 1)].
Proof. exact (ex_intro _ _ (ex_intro _ _ (conj eq_refl (conj eq_refl ex_line)))). Qed.
Print Assumptions C101_line_refuted.
