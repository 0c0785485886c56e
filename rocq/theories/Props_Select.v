(** C69: which images of a release are stored. *)
From Verif Require Import Base BaseFacts Path Dirs DirsSpec DirsFacts Select SelectSpec SelectFacts SelectEx.

(** What is stored: images that are shown as proof, images with the names of music or of other files of the release, and
    archives of proofs; with the option for more images, all but those of players. *)
Theorem C69_images : forall size cover packed root t more p, tree_ok t -> files_ok root t -> dir_path root ->
  In p (get_proof_files size cover packed more root t) <-> exists d n, file_at root t d n p /\
  ((image n /\ (shown p \/ (~ player n /\ (more = true \/ first_name n \/ (100000 < size p /\ cover p = false /\ alike root t p n))))) \/
   (named ".rar" n /\ within "proof" p /\ exists m, In m (packed p) /\ image m)).
Proof. exact proof_files'. Qed.
Print Assumptions C69_images.
Example C69_images_ex : tree_ok music /\ files_ok (str "/m/A_-_B-GRP") music /\ dir_path (str "/m/A_-_B-GRP") /\
  get_proof_files (fun p => if teqb (basename p) (str "imdb.jpg") then 30000 else 200000) (fun _ => false) (fun _ => [str "a.txt"; str "p.jpg"]) false (str "/m/A_-_B-GRP") music
  = map (fun s => str "/m/A_-_B-GRP/" ++ str s) ["00-a-b-grp.jpg"; "booklet-grp.JPG"; "Proof/x.PNG"; "Proof/y.rar"]%string.
Proof.
  assert (K : checked music = true) by (vm_compute; reflexivity). destruct (checked_ok music K) as [A B]. split; [exact A|]. split; [apply B|]. split; [|vm_compute; reflexivity].
  split; [discriminate|]. intros s E. apply (f_equal (fun l => hd 0 (rev l))) in E. rewrite rev_app_distr in E. vm_compute in E. discriminate E.
Qed.

(** No file is stored twice. *)
Theorem C69_once : forall size cover packed root t more, tree_ok t -> files_ok root t -> dir_path root -> NoDup (get_proof_files size cover packed more root t).
Proof. exact proof_once'. Qed.
Print Assumptions C69_once.
(** JPEG images have two patterns. *)
Example C69_once_ex : checked (flat ["00-a.jpeg"; "00-b.jpg"; "00-cjpeg"]%string) = true /\
  get_proof_files (fun _ => 0) (fun _ => false) (fun _ => []) false (str "/m") (flat ["00-a.jpeg"; "00-b.jpg"; "00-cjpeg"]%string) = map (fun s => str "/m/" ++ str s) ["00-b.jpg"; "00-a.jpeg"; "00-cjpeg"]%string.
Proof. vm_compute. split; reflexivity. Qed.

(** A large image with the name of the NFO file, the SFV file, a list of music or an archive is stored when the name is in
    small letters and has ten of them or a dash ... *)
Theorem C69_same_partial : forall size cover packed root t more d n p b x e, tree_ok t -> files_ok root t -> dir_path root ->
  file_at root t d n p -> image n -> ~ player n -> tells root t (b ++ x) -> lenN x = 4 -> n = b ++ 46 :: e -> ~ In 46 e -> lower b = b -> 10 <= lenN b \/ In 45 b ->
  100000 < size p -> cover p = false -> In p (get_proof_files size cover packed more root t).
Proof. exact same_kept'. Qed.
Print Assumptions C69_same_partial.
Example C69_same_partial_ex : checked (flat ["g-movie.nfo"; "g-movie.jpg"]%string) = true /\ lower (str "g-movie") = str "g-movie" /\ In 45 (str "g-movie") /\
  get_proof_files (fun _ => 100001) (fun _ => false) (fun _ => []) false (str "/m") (flat ["g-movie.nfo"; "g-movie.jpg"]%string) = [str "/m/g-movie.jpg"].
Proof. vm_compute. repeat split; tauto. Qed.

(** ... but not when it has capitals ... *)
Theorem C69_case_refuted : exists size cover packed root t d n p b x e, tree_ok t /\ files_ok root t /\ dir_path root /\
  file_at root t d n p /\ image n /\ ~ player n /\ tells root t (b ++ x) /\ lenN x = 4 /\ n = b ++ 46 :: e /\ ~ In 46 e /\ (10 <= lenN b /\ In 45 b) /\
  100000 < size p /\ cover p = false /\ ~ In p (get_proof_files size cover packed false root t).
Proof.
  exists (fun _ => 100001), (fun _ => false), (fun _ => []), (str "/m"), (flat ["GRP-Movie.2010.nfo"; "GRP-Movie.2010.jpg"]%string), (str "/m"), (str "GRP-Movie.2010.jpg"), (str "/m/GRP-Movie.2010.jpg"), (str "GRP-Movie.2010"), (str ".nfo"), (str "jpg").
  destruct (checked_ok (flat ["GRP-Movie.2010.nfo"; "GRP-Movie.2010.jpg"]%string)) as [A B]; [vm_compute; reflexivity|].
  split; [exact A|]. split; [apply B|]. split; [split; [discriminate|]; intros s E; apply (f_equal (fun l => hd 0 (rev l))) in E; rewrite rev_app_distr in E; vm_compute in E; discriminate E|].
  split; [apply (flat_file (str "/m")); cbn; tauto|]. split; [exists ".jpg"%string; split; [cbn; tauto|]; exists (str "grp-movie.2010"); reflexivity|].
  split; [intros X; apply (skip_spec (str "/m")) in X; [vm_compute in X; discriminate X|vm_compute; intuition discriminate|exists ".jpg"%string; split; [cbn; tauto|]; exists (str "grp-movie.2010"); reflexivity]|].
  split; [exists (str "/m"), (str "/m/GRP-Movie.2010.nfo"), ".nfo"%string; split; [apply (flat_file (str "/m") ["GRP-Movie.2010.nfo"; "GRP-Movie.2010.jpg"]%string "GRP-Movie.2010.nfo"); cbn; tauto|]; split; [cbn; tauto|]; exists (str "grp-movie.2010"); reflexivity|].
  split; [reflexivity|]. split; [reflexivity|]. split; [vm_compute; intuition discriminate|]. split; [split; [vm_compute; discriminate|vm_compute; tauto]|]. split; [reflexivity|]. split; [reflexivity|]. vm_compute. tauto.
Qed.
Print Assumptions C69_case_refuted.

(** ... and not when it is short. *)
Theorem C69_short_refuted : exists size cover packed root t d n p b x e, tree_ok t /\ files_ok root t /\ dir_path root /\
  file_at root t d n p /\ image n /\ ~ player n /\ tells root t (b ++ x) /\ lenN x = 4 /\ n = b ++ 46 :: e /\ ~ In 46 e /\ lower b = b /\
  100000 < size p /\ cover p = false /\ ~ In p (get_proof_files size cover packed false root t).
Proof.
  exists (fun _ => 100001), (fun _ => false), (fun _ => []), (str "/m"), (flat ["movie.nfo"; "movie.jpg"]%string), (str "/m"), (str "movie.jpg"), (str "/m/movie.jpg"), (str "movie"), (str ".nfo"), (str "jpg").
  destruct (checked_ok (flat ["movie.nfo"; "movie.jpg"]%string)) as [A B]; [vm_compute; reflexivity|].
  split; [exact A|]. split; [apply B|]. split; [split; [discriminate|]; intros s E; apply (f_equal (fun l => hd 0 (rev l))) in E; rewrite rev_app_distr in E; vm_compute in E; discriminate E|].
  split; [apply (flat_file (str "/m")); cbn; tauto|]. split; [exists ".jpg"%string; split; [cbn; tauto|]; exists (str "movie"); reflexivity|].
  split; [intros X; apply (skip_spec (str "/m")) in X; [vm_compute in X; discriminate X|vm_compute; intuition discriminate|exists ".jpg"%string; split; [cbn; tauto|]; exists (str "movie"); reflexivity]|].
  split; [exists (str "/m"), (str "/m/movie.nfo"), ".nfo"%string; split; [apply (flat_file (str "/m") ["movie.nfo"; "movie.jpg"]%string "movie.nfo"); cbn; tauto|]; split; [cbn; tauto|]; exists (str "movie"); reflexivity|].
  split; [reflexivity|]. split; [reflexivity|]. split; [vm_compute; intuition discriminate|]. split; [reflexivity|]. split; [reflexivity|]. split; [reflexivity|]. vm_compute. tauto.
Qed.
Print Assumptions C69_short_refuted.
