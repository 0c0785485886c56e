(** Props_Dirs: the theorems of C67, on directories that are releases. *)
From Verif Require Import Base BaseFacts Path Dirs DirsSpec DirsFacts DirsOrder DirsEx.
From Coq Require Import Sorted.

(** exactly the topmost releases are found, if no other path looks like one in a release *)
Theorem C67_found : forall root t q, tree_ok t -> dir_path root -> clear (fun p u => is_release (basename p) u = true) root t ->
  In q (get_release_directories root t) <-> topmost (fun p u => is_release (basename p) u = true) root t q.
Proof. exact release_directories. Qed.
Print Assumptions C67_found.
(** always: each one once, in order, and none in another *)
Theorem C67_sound : forall root t, tree_ok t -> dir_path root ->
  StronglySorted before (get_release_directories root t) /\
  (forall p, In p (get_release_directories root t) -> exists u, at_path root t p u /\ is_release (basename p) u = true) /\
  (forall p q, In p (get_release_directories root t) -> In q (get_release_directories root t) -> ~ below p q).
Proof. exact releases_sound. Qed.
Print Assumptions C67_sound.
(** a release is missed when it is in a directory whose name begins like the release before it *)
Theorem C67_missed_refuted : exists root t q, tree_ok t /\ dir_path root /\
  topmost (fun p u => is_release (basename p) u = true) root t q /\ ~ In q (get_release_directories root t).
Proof.
  exists (str "/m"), missed_tree, (str "/m/Show-Packs/S01-GRP"). split; [exact missed_ok|]. split; [split; [discriminate|]; intros [|? [|? [|]]]; discriminate|]. split.
  - exists (one "b.nfo"). split; [apply (at_sub _ _ _ (str "Show-Packs") (Dir [] [(str "S01-GRP", one "b.nfo")])); [right; now left|]; apply (at_sub _ _ _ (str "S01-GRP") (one "b.nfo")); [now left|constructor]|].
    split; [vm_compute; reflexivity|]. intros q v A B.
    assert (In (q, v) (walk (str "/m") missed_tree)) as W by (apply walk_in; [exact missed_ok| |exact A]; split; [discriminate|reflexivity]).
    vm_compute in W. destruct B as (s & B). destruct W as [W|[W|[W|[W|[]]]]]; injection W as <- <-; vm_compute; try discriminate; vm_compute in B; discriminate B.
  - vm_compute. intros [H|[]]. discriminate H.
Qed.
Print Assumptions C67_missed_refuted.
(** with an SFV file only the name matters *)
Theorem C67_sfv : forall name files dirs f, In f files -> named ".sfv" f -> is_release name (Dir files dirs) = true <-> release_name name.
Proof. exact sfv_release. Qed.
Print Assumptions C67_sfv.
(** an NFO file, and no directories or one with other files that is no release *)
Theorem C67_nfo : forall name f dirs, named ".nfo" f -> ~ site_nfo f ->
  (dirs = [] \/ exists n s, In (n, s) dirs /\ is_release n s = false /\ s <> Dir [] []) -> is_release name (Dir [f] dirs) = true <-> release_name name.
Proof. exact nfo_release. Qed.
Print Assumptions C67_nfo.
(** disks in directories of their own *)
Theorem C67_disks : forall name files dirs n s, In (n, s) dirs -> disk_name n -> holds ".sfv" s -> (forall f, files = [f] -> ~ named ".nfo" f) ->
  is_release name (Dir files dirs) = true <-> release_name name.
Proof. exact disks_release. Qed.
Print Assumptions C67_disks.
(** a pack of releases with an NFO file is none *)
Theorem C67_pack : forall name f dirs, named ".nfo" f -> (forall n s, In (n, s) dirs -> is_release n s = true \/ s = Dir [] []) ->
  (exists n s, In (n, s) dirs /\ In 45 n) -> is_release name (Dir [f] dirs) = false.
Proof. exact pack_none. Qed.
Print Assumptions C67_pack.
(** no other directory is a release *)
Theorem C67_only : forall name files dirs, is_release name (Dir files dirs) = true -> release_name name /\
  ((exists f, In f files /\ (named ".nfo" f \/ named ".sfv" f)) \/ exists n s, In (n, s) dirs /\ holds ".sfv" s).
Proof. exact release_has. Qed.
Print Assumptions C67_only.
(** CD1-Dj_Membrain and CD2-Dj_Sepalot are meant, with a hyphen more it fails *)
Theorem C67_cd_refuted : exists name dirs, release_name name /\ 2 <= lenN dirs /\
  (forall n s, In (n, s) dirs -> (exists d c rest, lower n = str "cd" ++ d :: c :: rest /\ is_digit d) /\ holds ".sfv" s) /\ is_release name (Dir [] dirs) = false.
Proof.
  exists (str "VA-Title-2CD-2000-GRP"), cd_dirs. split; [apply release_name_spec; vm_compute; split; reflexivity|]. split; [discriminate|]. split; [|vm_compute; reflexivity].
  intros n s [E|[E|[]]]; injection E as <- <-; (split; [eexists; eexists; eexists; split; [reflexivity|split; vm_compute; discriminate]|]); (eexists; split; [left; reflexivity|]); [now exists (str "a")|now exists (str "b")].
Qed.
Print Assumptions C67_cd_refuted.
Example C67_example : tree_ok some_tree /\ clear (fun p u => is_release (basename p) u = true) (str "/m") some_tree /\ get_release_directories (str "/m") some_tree = [str "/m/A-GRP"; str "/m/Pack/P.1-GRP"; str "/m/Pack/P.2-GRP"; str "/m/Z-GRP"].
Proof. split; [exact some_ok|]. split; [exact some_clear|]. vm_compute. reflexivity. Qed.
Example C67_names_example : disk_name (str "DVD_2-extras") /\ part_name (str "VobSamples") /\ release_name (str "Movie.2001.2CD.DVDRip.XviD-GRP") /\ ~ release_name (str "Disc1.Leon") /\ ~ release_name (str "My Movie") /\
  is_release (str "A-GRP") (Dir [str "x.r00"; str "x.SFV"] []) = true /\ is_release (str "A-GRP") (Dir [str "imdb.nfo"; str "a.jpg"] []) = false /\
  is_release (str "Nine-2CD-GRP") (Dir [] [(str "Left", one "l.sfv"); (str "Right", one "r.sfv")]) = true.
Proof.
  split; [apply disk_spec; vm_compute; reflexivity|]. split; [apply part_spec; vm_compute; reflexivity|]. split; [apply release_name_spec; vm_compute; now split|]. split; [rewrite release_name_spec; intros [H _]; vm_compute in H; discriminate H|]. split; [rewrite release_name_spec; intros [_ H]; vm_compute in H; discriminate H|].
  vm_compute. repeat split; reflexivity.
Qed.
