(** C99: renaming NZB files. *)
From Verif Require Import Base NzbRename NzbRenameSpec NzbRenameFacts NzbRenameEx.

(** The new name is the first one found in a file up to the first music file; it is music just if there is such a file. *)
Theorem C99_about : forall l x g, process l [] = (x, g) <-> about l x g.
Proof. exact about_thm. Qed.
Print Assumptions C99_about.
Example C99_about_example : process [mkFile (str "a.nfo") []; mkFile (str "01-a.mp3") (str "VA-Rel-2001-GRP"); mkFile (str "02-a.mp3") (str "Other")] [] = (str "VA-Rel-2001-GRP", true).
Proof. exact ex_about. Qed.
(** If the folders are there and nothing is in the way, each NZB file that can be read is moved to its folder under its new name, and nothing else is changed. *)
Theorem C99_main_partial : forall names d p o, (forall g, make_dirs p g = IsDir (o g)) -> free names d o -> exists o', (forall g, s_out (main p names d) g = IsDir (o' g)) /\
  (forall n g t c, In n names -> goes d n g t c -> s_in (main p names d) n = None /\ o' g t = Some c) /\
  (forall n, (forall g t c, In n names -> ~ goes d n g t c) -> s_in (main p names d) n = d n) /\
  (forall g t, (forall n c, In n names -> ~ goes d n g t c) -> o' g t = o g t).
Proof. exact main_thm. Qed.
Print Assumptions C99_main_partial.
Example C99_main_example : ((forall g, make_dirs None g = IsDir (x_none g)) /\ free x_names x_dir x_none) /\
  let s := main None x_names x_dir in at_ s true (str "VA-Rel-2001-GRP.nzb") = Some x_mp3 /\ at_ s false (str "Rel-GRP.nzb") = Some x_mkv /\ s_in s (str "1.nzb") = None /\ s_in s (str "t.txt") = Some (Stuff 1).
Proof. exact (conj ex_free ex_main). Qed.
(** Other files and NZB files that cannot be read stay in any case. *)
Theorem C99_stay : forall names d p n, ((forall b, n <> b ++ str ".nzb") \/ (forall l, d n <> Some (Files l))) -> s_in (main p names d) n = d n.
Proof. exact stay_thm. Qed.
Print Assumptions C99_stay.
Example C99_stay_example : let s := main None x_names x_dir in at_ s true (str "VA-Rel-2001-GRP.nzb") = Some x_mp3 /\ at_ s false (str "Rel-GRP.nzb") = Some x_mkv /\ s_in s (str "1.nzb") = None /\ s_in s (str "t.txt") = Some (Stuff 1).
Proof. exact ex_main. Qed.
(** no NZB file is lost: false for two of the same release, the second one overwrites the first one *)
Theorem C99_lost_refuted : exists d, let s := main None [str "1.nzb"; str "2.nzb"] d in at_ s false (str "Rel-GRP.nzb") = Some x_mkv /\ s_in s (str "1.nzb") = None /\ at_ s false (str "1.nzb") = None.
Proof. exact (ex_intro _ x_two ex_two). Qed.
Print Assumptions C99_lost_refuted.
(** the folders are made if they are not there: false if there is a folder processed, each NZB file is then moved over the one before *)
Theorem C99_folder_refuted : exists p d, s_out (main (Some p) [str "1.nzb"; str "2.nzb"] d) false = IsFile x_mkv /\ s_in (main (Some p) [str "1.nzb"; str "2.nzb"] d) (str "1.nzb") = None.
Proof. exact (ex_intro _ (fun _ => NotThere) (ex_intro _ x_two ex_file)). Qed.
Print Assumptions C99_folder_refuted.
(** all music is found: false for capitals *)
Theorem C99_capital_refuted : exists f, f_name f = str "01-A.MP3" /\ process [f] [] = (str "VA-Rel-2001-GRP", false).
Proof. exact (ex_intro _ (mkFile (str "01-A.MP3") (str "VA-Rel-2001-GRP")) (conj eq_refl ex_capital)). Qed.
Print Assumptions C99_capital_refuted.
(** NZB files in which no name is found keep theirs: false *)
Theorem C99_empty_refuted : exists d, let s := main None [str "1.nzb"] d in at_ s false (str ".nzb") = Some (Files []) /\ s_in s (str "1.nzb") = None.
Proof. exact (ex_intro _ (fun n => if teqb n (str "1.nzb") then Some (Files []) else None) ex_empty). Qed.
Print Assumptions C99_empty_refuted.
(** Without a folder processed, its folders are made, and there is nothing in them but the NZB files that are moved.  Missing: names that clash. *)
Theorem C99_new_partial : forall names d, free names d (fun _ _ => None) -> exists o', (forall g, s_out (main None names d) g = IsDir (o' g)) /\
  (forall n g t c, In n names -> goes d n g t c -> s_in (main None names d) n = None /\ o' g t = Some c) /\
  (forall n, (forall g t c, In n names -> ~ goes d n g t c) -> s_in (main None names d) n = d n) /\
  (forall g t, (forall n c, In n names -> ~ goes d n g t c) -> o' g t = None).
Proof. exact new_thm. Qed.
Print Assumptions C99_new_partial.
Example C99_new_example : free x_names x_dir x_none.
Proof. exact (proj2 ex_free). Qed.
