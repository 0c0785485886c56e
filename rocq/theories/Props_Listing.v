(** C93: the listing of releases, and of those without NFO file or sample. *)
From Verif Require Import Base Path PathSpec Sfv Dirs FixSpec Listing ListingSpec ListingFacts ListingEx.

(** Every release gets a line for the list, a line if no NFO file is in its folder, and a line if no video file is in the (first) folder for its sample, in order. *)
Theorem C93_list : forall listdir o rs, (forall d l, listdir d = Ok l -> Forall plain l /\ Forall one_line l) -> forall out, list_all listdir o rs = Ok out ->
  printed listdir (o_list o) (o_nfo o) (o_sample o) (o_paths o) rs out.
Proof. exact list_thm. Qed.
Print Assumptions C93_list.
Example C93_list_example : (forall d l, x_listdir d = Ok l -> Forall plain l /\ Forall one_line l) /\
  list_all x_listdir (mkList true true true false) [str "/p/a"; str "/p/b"] = Ok [str "a"; str "b"; str "b"; str "b"].
Proof. exact (conj x_names (proj1 ex_list)). Qed.
(** The listing comes to its end if the folders of the releases and all that is named as a folder for samples can be listed. *)
Theorem C93_total_partial : forall listdir o rs,
  (forall r, In r rs -> exists l, listdir r = Ok l /\ forall d, In d l -> lower d = str "sample" -> exists fs, listdir (in_folder r d) = Ok fs) ->
  (forall d l, listdir d = Ok l -> Forall plain l) -> exists out, list_all listdir o rs = Ok out.
Proof. exact total_thm. Qed.
Print Assumptions C93_total_partial.
Example C93_total_example : (forall r, In r [str "/p/a"; str "/p/b"] -> exists l, x_listdir r = Ok l /\ forall d, In d l -> lower d = str "sample" -> exists fs, x_listdir (in_folder r d) = Ok fs) /\
  list_all x_listdir (mkList false false true true) [str "/p/a"; str "/p/b"] = Ok [str "/p/b"].
Proof. exact (conj ex_total (proj2 ex_list)). Qed.
(** A name counts as that of a video file just if it ends in a character and the letters of an extension. *)
Theorem C93_video : forall n, one_line n -> vidext n = true <-> video_name n.
Proof. exact vidext_is. Qed.
Print Assumptions C93_video.
Example C93_video_example : vidext (str "x.MKV") = true /\ video_name (str "x.MKV") /\ vidext (str "x.srs") = false.
Proof. exact ex_video. Qed.
(** the file has to have an extension: false *)
Theorem C93_dot_refuted : exists n, vidext n = true /\ ~ In 46 n.
Proof. exact (ex_intro _ (str "charts") ex_dot). Qed.
Print Assumptions C93_dot_refuted.
(** a file named as the folder for samples ends the listing of all releases *)
Theorem C93_file_refuted : exists listdir r l, listdir r = Ok l /\ list_all listdir (mkList false false true false) [str "/p/b"; r] = Err OSError.
Proof. exact (ex_intro _ x_listdir (ex_intro _ (str "/p/c") (ex_intro _ _ ex_file))). Qed.
Print Assumptions C93_file_refuted.
(** a release with a sample is listed as one without if another folder for samples comes first *)
Theorem C93_first_refuted : exists listdir r d f, listdir r = Ok [d; f] /\ listdir (in_folder r f) = Ok [str "x.avi"] /\ list_all listdir (mkList false false true false) [r] = Ok [str "d"].
Proof. exact (ex_intro _ x_listdir (ex_intro _ (str "/p/d") (ex_intro _ (str "Sample") (ex_intro _ (str "sample") ex_two)))). Qed.
Print Assumptions C93_first_refuted.
