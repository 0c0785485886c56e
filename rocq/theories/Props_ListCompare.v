(** C103: comparing lists of releases. *)
From Verif Require Import Base ListCompare ListCompareSpec ListCompareFacts ListCompareEx.

(** The duplicates are the lines that are in both lists, each once, whatever the line ends.
    Missing: lists with a last line that has no line end, for which it is false. *)
Theorem C103_dupes_partial : forall la lb a b, written la a -> written lb b -> NoDup (dupes a b) /\ forall x, In x (dupes a b) <-> In x la /\ In x lb.
Proof. exact dupes_thm. Qed.
Print Assumptions C103_dupes_partial.
Example C103_dupes_example : (written [str "a"; str "b"] x_main /\ written [str "b"; str "c"] x_new) /\ dupes x_main x_new = [str "b"].
Proof. exact (conj ex_written (proj1 ex_compare)). Qed.
(** The uniques are the lines of the new list that are not in the main list, each once.  Missing: as above. *)
Theorem C103_uniques_partial : forall la lb a b, written la a -> written lb b -> NoDup (uniques a b) /\ forall x, In x (uniques a b) <-> In x lb /\ ~ In x la.
Proof. exact uniques_thm. Qed.
Print Assumptions C103_uniques_partial.
Example C103_uniques_example : (written [str "a"; str "b"] x_main /\ written [str "b"; str "c"] x_new) /\ uniques x_main x_new = [str "c"].
Proof. exact (conj ex_written (proj2 ex_compare)). Qed.
(** When the last line of the main list has no line end, a release in both lists is no duplicate but new. *)
Theorem C103_last_refuted : exists a b x, a = str "a" ++ [10] ++ x /\ b = x ++ [10] /\ dupes a b = [] /\ uniques a b = [x].
Proof. exact (ex_intro _ _ (ex_intro _ _ (ex_intro _ (str "b") (conj eq_refl (conj eq_refl ex_last))))). Qed.
Print Assumptions C103_last_refuted.
(** And a release can be printed twice. *)
Theorem C103_once_refuted : exists b, ~ NoDup (uniques [] b).
Proof. exact ex_not_once. Qed.
Print Assumptions C103_once_refuted.
