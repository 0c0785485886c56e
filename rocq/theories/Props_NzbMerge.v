(** C98: merging the NZB files of a release. *)
From Coq Require Import Permutation Sorted.
From Verif Require Import Base NzbMerge NzbMergeSpec NzbMergeFacts NzbMergeEx.

(** In Python 2: two or more NZB files that are seen are merged into that of the shortest name, with the files in them from short to long names; the other NZB files
    are removed and nothing else is changed. *)
Theorem C98_merge : forall A cwd (f : folder A) cs, NoDup (map fst f) -> picks A cwd f cs -> (lenN cs < 2 -> merge_nzbs A cwd false f = (f, None)) /\
  (2 <= lenN cs -> exists f', merge_nzbs A cwd false f = (f', None) /\ merged A cwd f cs f').
Proof. exact merge_thm. Qed.
Print Assumptions C98_merge.
Example C98_merge_example : (NoDup (map fst x_folder) /\ picks N x_cwd x_folder x_cs /\ 2 <= lenN x_cs) /\ merge_nzbs N x_cwd false x_folder = ([(str "a.NZB", Nzb [1; 2; 7; 3; 4]); (str "a.nfo", Junk)], None).
Proof. exact (conj (conj ex_nodup ex_picks) ex_merge). Qed.
(** If one of them cannot be read nothing is changed. *)
Theorem C98_unread : forall A cwd py3 (f : folder A), NoDup (map fst f) -> (forall cs, ~ picks A cwd f cs) -> fst (merge_nzbs A cwd py3 f) = f.
Proof. exact unread_thm. Qed.
Print Assumptions C98_unread.
Example C98_unread_example : (NoDup (map fst x_bad) /\ forall cs, ~ picks N x_cwd x_bad cs) /\ merge_nzbs N x_cwd false x_bad = (x_bad, Some ValueError).
Proof. exact ex_unread. Qed.
(** In Python 3: the NZB file of the shortest name is emptied, and the program ends. *)
Theorem C98_python3 : forall A cwd (f : folder A) cs, NoDup (map fst f) -> picks A cwd f cs -> 2 <= lenN cs -> exists f' k a l, merge_nzbs A cwd true f = (f', Some TypeError) /\ by_length A cs ((k, a) :: l) /\
  forall n e, In (n, e) f' <-> (n = k /\ e = Empty) \/ (In (n, e) f /\ n <> k).
Proof. exact merge3_thm. Qed.
Print Assumptions C98_python3.
Example C98_python3_example : (NoDup (map fst x_folder) /\ picks N x_cwd x_folder x_cs /\ 2 <= lenN x_cs) /\
  merge_nzbs N x_cwd true x_folder = ([(str "a-1.nzb", Nzb [3; 4]); (str "a.NZB", Empty); (str "b.nzb", Nzb [7]); (str "a.nfo", Junk)], Some TypeError).
Proof. exact (conj (conj ex_nodup ex_picks) ex_merge3). Qed.
(** A run without error merges the releases whose names are those of folders in the current folder, and just these. *)
Theorem C98_main_partial : forall A cwd (l l' : list (text * option (folder A))), (forall n f, In (n, Some f) l -> NoDup (map fst f)) -> main A cwd false l = (l', None) ->
  Forall2 (fun x y => fst x = fst y /\ (cwd (fst x) = true -> exists f f', snd x = Some f /\ snd y = Some f' /\ done A cwd f f') /\ (cwd (fst x) = false -> snd x = snd y)) l l'.
Proof. exact main_thm. Qed.
Print Assumptions C98_main_partial.
Example C98_main_example : main N x_cwd false [(str "rel", Some x_folder); (str "rel2", Some x_folder)] = ([(str "rel", Some [(str "a.NZB", Nzb [1; 2; 7; 3; 4]); (str "a.nfo", Junk)]); (str "rel2", Some x_folder)], None).
Proof. exact ex_main. Qed.
(** Started from elsewhere, where no folder has the name of a release, the program does nothing. *)
Theorem C98_nothing : forall A cwd py3 (l : list (text * option (folder A))), (forall n o, In (n, o) l -> cwd n = false) -> main A cwd py3 l = (l, None).
Proof. exact nothing_thm. Qed.
Print Assumptions C98_nothing.
Example C98_nothing_example : main N (fun _ => false) true [(str "rel", Some x_folder)] = ([(str "rel", Some x_folder)], None).
Proof. reflexivity. Qed.
(** all releases of the folder given are merged: false, rel2 is not in the current folder *)
Theorem C98_cwd_refuted : exists cwd, main N cwd false [(str "rel", Some x_folder); (str "rel2", Some x_folder)] = ([(str "rel", Some [(str "a.NZB", Nzb [1; 2; 7; 3; 4]); (str "a.nfo", Junk)]); (str "rel2", Some x_folder)], None).
Proof. exact (ex_intro _ x_cwd ex_main). Qed.
Print Assumptions C98_cwd_refuted.
(** no file is lost: false in Python 3, 1 and 2 are in no NZB file any more *)
Theorem C98_python3_refuted : exists f, In (str "a.NZB", Nzb [1; 2]) f /\ merge_nzbs N x_cwd true f = ([(str "a-1.nzb", Nzb [3; 4]); (str "a.NZB", Empty); (str "b.nzb", Nzb [7]); (str "a.nfo", Junk)], Some TypeError).
Proof. exact (ex_intro _ x_folder (conj (or_intror (or_introl eq_refl)) ex_merge3)). Qed.
Print Assumptions C98_python3_refuted.
(** all NZB files of the release are merged: false for one with the name of a folder in the current folder *)
Theorem C98_left_refuted : exists cwd, merge_nzbs N cwd false x_folder = ([(str "a.NZB", Nzb [1; 2; 3; 4]); (str "b.nzb", Nzb [7]); (str "a.nfo", Junk)], None).
Proof. exact (ex_intro _ (fun n => teqb n (str "b.nzb")) ex_left). Qed.
Print Assumptions C98_left_refuted.
(** folders are left out: false, a folder of the release with the name of an NZB file is an error *)
Theorem C98_dir_refuted : exists n, merge_nzbs N x_cwd false ((n, Dir) :: x_folder) = ((n, Dir) :: x_folder, Some OSError).
Proof. exact (ex_intro _ (str "s.nzb") ex_dir). Qed.
Print Assumptions C98_dir_refuted.
