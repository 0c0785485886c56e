(** ListCompareEx: examples of comparing lists. *)
From Verif Require Import Base BaseFacts ListCompare ListCompareSpec ListCompareFacts.

Definition x_main : text := str "a" ++ [13; 10] ++ str "b" ++ [13; 10].
Definition x_new : text := str "b" ++ [10] ++ str "c" ++ [13].
Lemma ex_written : written [str "a"; str "b"] x_main /\ written [str "b"; str "c"] x_new.
Proof.
  split.
  - apply (wr_cons (str "a") [13; 10] [str "b"] (str "b" ++ [13; 10])); [intros [X|[]]; discriminate X|intros [X|[]]; discriminate X|now right; left|]. apply (wr_cons (str "b") [13; 10] [] []); [intros [X|[]]; discriminate X|intros [X|[]]; discriminate X|now right; left|constructor].
  - apply (wr_cons (str "b") [10] [str "c"] (str "c" ++ [13])); [intros [X|[]]; discriminate X|intros [X|[]]; discriminate X|now left|]. apply (wr_cons (str "c") [13] [] []); [intros [X|[]]; discriminate X|intros [X|[]]; discriminate X|right; right; split; [reflexivity|discriminate]|constructor].
Qed.
Lemma ex_compare : dupes x_main x_new = [str "b"] /\ uniques x_main x_new = [str "c"].
Proof. split; vm_compute; reflexivity. Qed.
(** the last line without line end *)
Lemma ex_last : dupes (str "a" ++ [10] ++ str "b") (str "b" ++ [10]) = [] /\ uniques (str "a" ++ [10] ++ str "b") (str "b" ++ [10]) = [str "b"].
Proof. split; vm_compute; reflexivity. Qed.
Lemma ex_twice : uniques [] (str "b" ++ [10] ++ str "b") = [str "b"; str "b"].
Proof. vm_compute. reflexivity. Qed.
Lemma ex_not_once : exists b, ~ NoDup (uniques [] b).
Proof. exists (str "b" ++ [10] ++ str "b"). rewrite ex_twice. intros H. inversion H as [|? ? X _]; subst. apply X. now left. Qed.
