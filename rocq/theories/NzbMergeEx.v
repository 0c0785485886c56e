(** NzbMergeEx: examples of merging NZB files. *)
From Coq Require Import Permutation Sorted.
From Verif Require Import Base BaseFacts NzbMerge NzbMergeSpec NzbMergeFacts.

Definition x_cwd (n : text) : bool := teqb n (str "rel").
Definition x_folder : folder N := [(str "a-1.nzb", Nzb [3; 4]); (str "a.NZB", Nzb [1; 2]); (str "b.nzb", Nzb [7]); (str "a.nfo", Junk)].
Definition x_cs : list (text * list N) := [(str "a-1.nzb", [3; 4]); (str "a.NZB", [1; 2]); (str "b.nzb", [7])].

Lemma ex_merge : merge_nzbs N x_cwd false x_folder = ([(str "a.NZB", Nzb [1; 2; 7; 3; 4]); (str "a.nfo", Junk)], None).
Proof. vm_compute. reflexivity. Qed.
Lemma ex_nodup : NoDup (map fst x_folder).
Proof. repeat (constructor; [cbn; intuition discriminate|]). constructor. Qed.
Lemma ex_picks : picks N x_cwd x_folder x_cs /\ 2 <= lenN x_cs.
Proof.
  split; [|vm_compute; discriminate]. repeat (apply pk_take; [apply cand_is; vm_compute; reflexivity|]). apply pk_skip; [|constructor]. rewrite <- cand_is. vm_compute. discriminate.
Qed.
Lemma ex_merge3 : merge_nzbs N x_cwd true x_folder = ([(str "a-1.nzb", Nzb [3; 4]); (str "a.NZB", Empty); (str "b.nzb", Nzb [7]); (str "a.nfo", Junk)], Some TypeError).
Proof. vm_compute. reflexivity. Qed.
Definition x_bad : folder N := [(str "a.nzb", Nzb [1]); (str "bb.nzb", Junk)].
Lemma ex_unread : (NoDup (map fst x_bad) /\ forall cs, ~ picks N x_cwd x_bad cs) /\ merge_nzbs N x_cwd false x_bad = (x_bad, Some ValueError).
Proof.
  split; [|vm_compute; reflexivity]. split; [repeat (constructor; [cbn; intuition discriminate|]); constructor|].
  intros cs P. inversion P as [|n a f l S0 Q|n e f l S0 Q]; subst; [|apply S0; apply cand_is; vm_compute; reflexivity].
  inversion Q as [| |n e f k S1 _]; subst. apply S1. apply cand_is. vm_compute. reflexivity.
Qed.
Lemma ex_main : main N x_cwd false [(str "rel", Some x_folder); (str "rel2", Some x_folder)] = ([(str "rel", Some [(str "a.NZB", Nzb [1; 2; 7; 3; 4]); (str "a.nfo", Junk)]); (str "rel2", Some x_folder)], None).
Proof. vm_compute. reflexivity. Qed.
(** an NZB file with the name of a folder in the current folder *)
Lemma ex_left : merge_nzbs N (fun n => teqb n (str "b.nzb")) false x_folder = ([(str "a.NZB", Nzb [1; 2; 3; 4]); (str "b.nzb", Nzb [7]); (str "a.nfo", Junk)], None).
Proof. vm_compute. reflexivity. Qed.
(** a folder with the name of an NZB file *)
Lemma ex_dir : merge_nzbs N x_cwd false ((str "s.nzb", Dir) :: x_folder) = ((str "s.nzb", Dir) :: x_folder, Some OSError).
Proof. vm_compute. reflexivity. Qed.
