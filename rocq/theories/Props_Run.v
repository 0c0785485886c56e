(** C92: the releases that pyrescene goes through, and its exit status. *)
From Verif Require Import Base Path Sfv Run RunSpec RunFacts RunEx.

(** There is a list of releases to go through for all folders. *)
Theorem C92_works : forall abspath releases rec dirs, exists l, works abspath releases rec dirs l.
Proof. exact works_thm. Qed.
Print Assumptions C92_works.
(** The exit status is 0 just if there is an SRR file for every release of every folder. *)
Theorem C92_ok : forall gen abspath releases rec dirs l, works abspath releases rec dirs l -> (r_status (main_run gen abspath releases rec dirs) = Ok 0 <-> through gen [] l []).
Proof. exact ok_thm. Qed.
Print Assumptions C92_ok.
Example C92_ok_example : r_status (main_run x_gen (fun d => d) x_releases true [str "/z"; str "/z"]) = Ok 0 /\ r_status (main_run x_gen (fun d => d) x_releases false [str "/d"; str "/a"]) = Ok 1 /\
  works (fun d => d) x_releases false [str "/d"; str "/a"] [str "/d"; str "/a"].
Proof. exact ex_ok. Qed.
(** With -r, if no release ends with another error than a missing file, all are gone through, and just those without SRR file are listed. *)
Theorem C92_all_partial : forall gen abspath releases dirs l bad, works abspath releases true dirs l -> through gen [] l bad ->
  main_run gen abspath releases true dirs = mkReport (Ok (match bad with [] => 0 | _ => 1 end)) l bad true.
Proof. exact all_thm. Qed.
Print Assumptions C92_all_partial.
Example C92_all_example : works (fun d => d) x_releases true [str "/x"; str "/y"] [str "/a"; str "/b"; str "/c"; str "/a"] /\ through x_gen [] [str "/a"; str "/b"; str "/c"; str "/a"] [str "/b"; str "/c"] /\
  main_run x_gen (fun d => d) x_releases true [str "/x"; str "/y"] = mkReport (Ok 1) [str "/a"; str "/b"; str "/c"; str "/a"] [str "/b"; str "/c"] true.
Proof. exact ex_through. Qed.
(** Releases are always taken in order, and none is left out before another. *)
Theorem C92_order : forall gen abspath releases rec dirs l, works abspath releases rec dirs l -> exists rest, l = r_seen (main_run gen abspath releases rec dirs) ++ rest.
Proof. exact order_thm. Qed.
Print Assumptions C92_order.
(** The working directory is removed just if there is an exit status; after an exception no release is listed. *)
Theorem C92_removed : forall gen abspath releases rec dirs, (r_removed (main_run gen abspath releases rec dirs) = true /\ exists n, r_status (main_run gen abspath releases rec dirs) = Ok n) \/
  (r_removed (main_run gen abspath releases rec dirs) = false /\ r_missing (main_run gen abspath releases rec dirs) = [] /\ exists e, r_status (main_run gen abspath releases rec dirs) = Err e).
Proof. exact kept_thm. Qed.
Print Assumptions C92_removed.
Example C92_order_example : r_seen (main_run x_gen (fun d => d) x_releases false [str "/a"; str "/d"; str "/a"]) = [str "/a"; str "/d"].
Proof. reflexivity. Qed.
Example C92_removed_example : main_run x_gen (fun d => d) x_releases true [str "/x"; str "/z"] = mkReport (Ok 1) [str "/a"; str "/b"; str "/a"] [str "/b"] true /\
  main_run x_gen (fun d => d) x_releases false [str "/c"; str "/e"] = mkReport (Err OSError) [str "/c"; str "/e"] [] false.
Proof. exact ex_raised. Qed.
(** without -r a release with a missing file ends the program: the next release is not looked at, nothing is listed and the working directory stays *)
Theorem C92_single_refuted : exists gen a b e, gen [] a = Fails FileNotFound /\ (forall seen, gen seen b = Made) /\
  main_run gen (fun d => d) x_releases false [a; b] = mkReport (Err e) [a] [] false.
Proof. exact (ex_intro _ x_gen (ex_intro _ (str "/b") (ex_intro _ (str "/a") (ex_intro _ FileNotFound (conj eq_refl (conj (fun _ => eq_refl) ex_single)))))). Qed.
Print Assumptions C92_single_refuted.
(** An SRR file is overwritten just if it is not there, if the user always says yes, or if the first answer is yes; never with -n. *)
Theorem C92_overwrite : forall yes no file answers b, can_overwrite yes no file answers = Ok b <->
  (b = true /\ (yes = true \/ file = false)) \/ (yes = false /\ file = true /\ ((no = true /\ b = false) \/ (no = false /\ says b answers))).
Proof. exact overwrite_thm. Qed.
Print Assumptions C92_overwrite.
Example C92_overwrite_example : says true [str "what"; str "Y"] /\ says false [str "yes"; str "n"; str "y"] /\ can_overwrite false false true [str "yes"; str "n"; str "y"] = Ok false.
Proof. exact ex_answers. Qed.
(** the user is asked before the output folder is made: false, it is made whatever the answer is *)
Theorem C92_folder_refuted : exists answers, says false answers /\ output_dir false false false answers = Ok (Some true).
Proof. exact (ex_intro _ [str "n"] ex_dir). Qed.
Print Assumptions C92_folder_refuted.
(** The output folder is made just if it is not there, and if its name is that of a file, the user says yes to that. *)
Theorem C92_output : forall yes there file answers r, output_dir yes there file answers = Ok r <->
  (there = true /\ r = None) \/ (there = false /\ (yes = true \/ file = false) /\ r = Some true) \/ (there = false /\ yes = false /\ file = true /\ exists b, says b answers /\ r = Some b).
Proof. exact folder_thm. Qed.
Print Assumptions C92_output.
Example C92_output_example : output_dir false false true [str "x"; str "N"] = Ok (Some false) /\ output_dir false true false [] = Ok None /\ output_dir true false true [] = Ok (Some true).
Proof. exact ex_output. Qed.
