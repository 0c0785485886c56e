(** C72: the files of a release with an .srs file, and the names of the .srs files. *)
From Verif Require Import Base BaseFacts Path Dirs DirsSpec DirsFacts Select SelectSpec SelectFacts SelectEx Media MediaSpec MediaFacts.

(** A sample is a video with "sample" in its path, with an SFV file of its own or with its name in an SFV file. *)
Theorem C72_samples : forall listed root t, tree_ok t -> path_ok root -> files_ok root t -> forall p, In p (get_sample_files listed root t) <->
  exists d n, file_at root t d n p /\ video n /\ (within "sample" p \/ beside root t p \/ in_sfv listed root t n).
Proof. exact samples_ok. Qed.
Print Assumptions C72_samples.
Example C72_samples_ex : let t := Dir (map str ["m.avi"; "01-V.mkv"; "02-v.mkv"; "b.sfv"; "v.mp4"; "v.SFV"; "w.mpg"; "w.sfv"]%string) [(str "Sample", Dir [str "s.VOB"; str "s.txt"] [])] in
  checked t = true /\ path_ok (str "r") /\
  get_sample_files (fun s => if teqb s (str "r/b.sfv") then [str "02-v.mkv"] else [str "01-v.mkv"]) (str "r") t = map str ["r/w.mpg"; "r/Sample/s.VOB"; "r/02-v.mkv"]%string.
Proof. split; [vm_compute; reflexivity|]. split; [|vm_compute; reflexivity]. split; [discriminate|vm_compute; reflexivity]. Qed.

(** Each is given once. *)
Theorem C72_once : forall listed root t, tree_ok t -> path_ok root -> files_ok root t -> NoDup (get_sample_files listed root t).
Proof. exact samples_once. Qed.
Print Assumptions C72_once.
Example C72_once_ex : checked (flat ["a.sample.ts"; "a.m2ts"; "a.sfv"]%string) = true /\
  get_sample_files (fun _ => map str ["a.m2ts"; "a.sample.ts"]%string) (str "r") (flat ["a.sample.ts"; "a.m2ts"; "a.sfv"]%string) = map str ["r/a.sample.ts"; "r/a.m2ts"]%string.
Proof. split; vm_compute; reflexivity. Qed.

(** The music files are those that end with .mp3, .mp2 or .flac, each once. *)
Theorem C72_music : forall root t, tree_ok t -> path_ok root -> files_ok root t -> forall p, In p (get_music_files root t) <-> exists d n, file_at root t d n p /\ music n.
Proof. exact music_ok. Qed.
Print Assumptions C72_music.
Theorem C72_music_once : forall root t, tree_ok t -> path_ok root -> files_ok root t -> NoDup (get_music_files root t).
Proof. exact music_once. Qed.
Print Assumptions C72_music_once.
Example C72_music_ex : let t := Dir (map str ["01.flac"; "02.MP3"; "a.m3u"]%string) [(str "CD2", Dir [str "01.mp2"] [])] in checked t = true /\
  get_music_files (str "r") t = map str ["r/02.MP3"; "r/CD2/01.mp2"; "r/01.flac"]%string.
Proof. split; vm_compute; reflexivity. Qed.

(** The path of the release does not matter, if it has no "sample" itself. *)
Theorem C72_inside_partial : forall listed root t, tree_ok t -> path_ok root -> files_ok root t -> ~ within "sample" root -> forall p, In p (get_sample_files listed root t) <->
  exists r d n, p = root ++ 47 :: r /\ file_at root t d n p /\ video n /\ (within "sample" r \/ beside root t p \/ in_sfv listed root t n).
Proof. exact inside_ok. Qed.
Print Assumptions C72_inside_partial.
Example C72_inside_partial_ex : ~ within "sample" (str "r") /\ get_sample_files (fun _ => []) (str "r") (flat ["m.mkv"; "m-Sample.mkv"]%string) = [str "r/m-Sample.mkv"].
Proof. split; [|vm_compute; reflexivity]. intros H. apply part_of_spec in H. vm_compute in H. discriminate H. Qed.

(** Otherwise every video of the release is a sample, the main one too. *)
Theorem C72_inside_refuted : exists listed root t p d n, tree_ok t /\ path_ok root /\ files_ok root t /\ In p (get_sample_files listed root t) /\ file_at root t d n p /\
  ~ within "sample" n /\ d = root /\ ~ beside root t p /\ ~ in_sfv listed root t n.
Proof.
  exists (fun _ => []), (str "Samples/A-GRP"), (flat ["m.mkv"]%string), (str "Samples/A-GRP/m.mkv"), (str "Samples/A-GRP"), (str "m.mkv").
  destruct (checked_ok (flat ["m.mkv"]%string)) as [A B]; [vm_compute; reflexivity|]. split; [exact A|].
  split; [split; [discriminate|vm_compute; reflexivity]|]. split; [apply B|]. split; [vm_compute; now left|].
  split; [now apply (flat_file (str "Samples/A-GRP") ["m.mkv"]%string "m.mkv"%string (or_introl eq_refl))|].
  split; [intros H; apply part_of_spec in H; vm_compute in H; discriminate H|]. split; [reflexivity|]. split.
  - intros (b & x & d & n & E & L & fs & ds & X & I & J). inversion X; subst; [|match goal with K : In _ [] |- _ => destruct K end]. destruct I as [<-|[]].
    apply (f_equal (@rev N)) in J. rewrite rev_app_distr in J. vm_compute in J. discriminate J.
  - intros (d & s & q & _ & _ & []).
Qed.
Print Assumptions C72_inside_refuted.

(** If files that differ in the extension only are neighbours and no file has the name of another without extension, then no two .srs files have one name. *)
Theorem C72_srs_partial : forall media, NoDup media -> together media -> no_stem media -> NoDup (srs_names media).
Proof. exact srs_once. Qed.
Print Assumptions C72_srs_partial.
Example C72_srs_partial_ex : let l := map str ["S/a.mkv"; "S/a.m2ts"; "S/b.avi"]%string in
  (NoDup l /\ together l /\ no_stem l) /\ srs_names l = map str ["S/a.mkv.srs"; "S/a.m2ts.srs"; "S/b.srs"]%string.
Proof.
  cbn zeta. assert (St : forall p s, stem p s -> s = base p) by (intros p s H; apply (stem_one p); [exact H|apply base_stem]).
  split; [|vm_compute; reflexivity]. split; [apply distinct_ok; vm_compute; reflexivity|]. split.
  - intros a p b q c r s E P Q I. apply St in P. apply St in Q. rewrite P in Q. exfalso.
    assert (L : (length a + length b + length c = 1)%nat) by (apply (f_equal (@length text)) in E; rewrite app_length in E; cbn [length] in E; rewrite app_length in E; cbn [length map] in E; lia).
    destruct a as [|a1 [|a2 a]]; destruct b as [|b1 [|b2 b]]; destruct c as [|c1 [|c2 c]]; cbn [length] in L; try lia; try now destruct I.
    cbn [app map] in E. injection E as <- <- <-. vm_compute in Q. discriminate Q.
  - intros p q I J. left. intros H. apply St in H. cbn [map] in I, J. destruct J as [<-|[<-|[<-|[]]]]; destruct I as [<-|[<-|[<-|[]]]]; vm_compute in H; discriminate H.
Qed.

(** Otherwise there can be: only neighbours are compared. *)
Theorem C72_srs_refuted : exists media p q, NoDup media /\ no_stem media /\ In p media /\ In q media /\ p <> q /\ srs_result (same_srs_name media) p = srs_result (same_srs_name media) q.
Proof.
  exists (map str ["a.avi"; "a.b.avi"; "a.mkv"]%string), (str "a.avi"), (str "a.mkv").
  assert (St : forall p s, stem p s -> s = base p) by (intros p s H; apply (stem_one p); [exact H|apply base_stem]).
  split; [apply distinct_ok; vm_compute; reflexivity|]. split.
  - intros p q I J. left. intros H. apply St in H. cbn [map] in I, J. destruct J as [<-|[<-|[<-|[]]]]; destruct I as [<-|[<-|[<-|[]]]]; vm_compute in H; discriminate H.
  - split; [now left|]. split; [right; right; now left|]. split; [discriminate|]. vm_compute. reflexivity.
Qed.
Print Assumptions C72_srs_refuted.
Theorem C72_stem_refuted : exists media p q, NoDup media /\ together media /\ In p media /\ In q media /\ p <> q /\ srs_result (same_srs_name media) p = srs_result (same_srs_name media) q.
Proof.
  exists (map str ["a.avi"; "a.mkv"; "a.avi.mp4"]%string), (str "a.avi"), (str "a.avi.mp4").
  assert (St : forall p s, stem p s -> s = base p) by (intros p s H; apply (stem_one p); [exact H|apply base_stem]).
  split; [apply distinct_ok; vm_compute; reflexivity|]. split.
  - intros a p b q c r s E P Q I. apply St in P. apply St in Q. rewrite P in Q. exfalso.
    assert (L : (length a + length b + length c = 1)%nat) by (apply (f_equal (@length text)) in E; rewrite app_length in E; cbn [length] in E; rewrite app_length in E; cbn [length map] in E; lia).
    destruct a as [|a1 [|a2 a]]; destruct b as [|b1 [|b2 b]]; destruct c as [|c1 [|c2 c]]; cbn [length] in L; try lia; try now destruct I.
    cbn [app map] in E. injection E as <- <- <-. vm_compute in Q. discriminate Q.
  - split; [now left|]. split; [right; right; now left|]. split; [discriminate|]. vm_compute. reflexivity.
Qed.
Print Assumptions C72_stem_refuted.

(** The name is the path with .srs in place of the extension; only a file with the stem of another keeps its extension. *)
Theorem C72_name : forall media p, exists b, srs_result (same_srs_name media) p = b ++ str ".srs" /\ (b = p \/ stem p b).
Proof. exact srs_name. Qed.
Print Assumptions C72_name.
Theorem C72_full : forall media p, NoDup media -> In p media -> srs_result (same_srs_name media) p = p ++ str ".srs" -> ~ stem p p ->
  exists q s, In q media /\ q <> p /\ stem p s /\ stem q s.
Proof. exact full_name. Qed.
Print Assumptions C72_full.
Example C72_full_ex : let l := map str ["a.mkv"; "a.avi"]%string in NoDup l /\ srs_result (same_srs_name l) (str "a.avi") = str "a.avi" ++ str ".srs" /\ ~ stem (str "a.avi") (str "a.avi").
Proof.
  cbn zeta. split; [apply distinct_ok; vm_compute; reflexivity|]. split; [vm_compute; reflexivity|]. intros H.
  assert (X : str "a.avi" = base (str "a.avi")) by (apply (stem_one (str "a.avi")); [exact H|apply base_stem]). vm_compute in X. discriminate X.
Qed.
