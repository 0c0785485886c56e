(** C70: the SFV files of the main archives. *)
From Coq Require Import Permutation.
From Verif Require Import VolName VolSpec VolFacts Base BaseFacts Path Dirs DirsSpec Select SelectSpec Wanted WantedSpec WantedFacts.

(** What is given are SFV files of the list, in its order. *)
Theorem C70_order : forall entries isfile packed l root, exists keep, remove_unwanted_sfvs entries isfile packed l root = filter keep l.
Proof. exact remove_filter. Qed.
Print Assumptions C70_order.
Example C70_order_ex : remove_unwanted_sfvs (fun _ => [str "a.rar"]) (fun _ => true) (fun _ => ([], false)) (map str ["/m/A/c.sfv"; "/m/A/Subs/b.sfv"; "/m/A/a.sfv"]%string) (str "/m/A") = map str ["/m/A/c.sfv"; "/m/A/a.sfv"]%string.
Proof. vm_compute. reflexivity. Qed.

(** The SFV files in the directory of a release, and in those of its disks, are given. *)
Theorem C70_main_partial : forall entries isfile packed root rel l sfv, release_at root rel -> In sfv l -> main_sfv root rel sfv ->
  In sfv (remove_unwanted_sfvs entries isfile packed l root).
Proof. exact main_kept. Qed.
Print Assumptions C70_main_partial.
Example C70_main_partial_ex : release_at (str "/m/A.Fix-GRP") (str "A.Fix-GRP") /\ main_sfv (str "/m/A.Fix-GRP") (str "A.Fix-GRP") (str "/m/A.Fix-GRP/CD1/a.sfv") /\
  remove_unwanted_sfvs (fun _ => [str "a.rar"]) (fun _ => true) (fun _ => ([str "a.jpg"], false))
    (map (fun s => str "/m/A.Fix-GRP/" ++ str s) ["CD1/a.sfv"; "a.sfv"; "Subs/b.sfv"; "CD1/a.vobsubs.sfv"; "Proof/p.sfv"]%string) (str "/m/A.Fix-GRP")
  = map (fun s => str "/m/A.Fix-GRP/" ++ str s) ["CD1/a.sfv"; "a.sfv"]%string.
Proof.
  assert (D : forall s, negb (47 =? hd 47 (rev (str s))) = true -> dir_path (str s)).
  { intros s H. split; [intros X; rewrite X in H; discriminate|]. intros t E. rewrite E, rev_app_distr in H. discriminate. }
  split; [|split; [|vm_compute; reflexivity]].
  - split; [now apply D|]. split; [vm_compute; intuition discriminate|]. exists (str "/m"). reflexivity.
  - exists (str "/m/A.Fix-GRP/CD1"), (str "a.sfv"). split; [split; [reflexivity|]; split; [vm_compute; intuition discriminate|now apply D]|]. split.
    + intros [H|[H|H]]; apply within_b in H; vm_compute in H; discriminate H.
    + right. exists (str "CD1"). split; [exists 49; split; [reflexivity|unfold is_digit; lia]|]. split; [reflexivity|]. intros (a & E). apply (f_equal (fun l => hd 0 (rev l))) in E. rewrite rev_app_distr in E. vm_compute in E. discriminate E.
Qed.

(** The SFV files of the disks of a release whose group has a name that ends with "subs" are not. *)
Theorem C70_main_refuted : exists entries isfile packed root rel l sfv d n k, release_at root rel /\ In sfv l /\ sfv_at d n sfv /\ ~ about_subs n /\ cd_dir k /\ d = root ++ 47 :: k /\
  (forall s, In s l -> entries s <> []) /\ remove_unwanted_sfvs entries isfile packed l root = [].
Proof.
  exists (fun _ => [str "a.rar"]), (fun _ => true), (fun _ => ([], false)), (str "/m/A-CULTSUBS"), (str "A-CULTSUBS"), [str "/m/A-CULTSUBS/CD1/a.sfv"; str "/m/A-CULTSUBS/CD2/b.sfv"], (str "/m/A-CULTSUBS/CD1/a.sfv"), (str "/m/A-CULTSUBS/CD1"), (str "a.sfv"), (str "CD1").
  assert (D : forall s, negb (47 =? hd 47 (rev (str s))) = true -> dir_path (str s)).
  { intros s H. split; [intros X; rewrite X in H; discriminate|]. intros t E. rewrite E, rev_app_distr in H. discriminate. }
  split; [split; [now apply D|]; split; [vm_compute; intuition discriminate|]; exists (str "/m"); reflexivity|]. split; [now left|]. split; [split; [reflexivity|]; split; [vm_compute; intuition discriminate|now apply D]|].
  split; [intros [H|[H|H]]; apply within_b in H; vm_compute in H; discriminate H|]. split; [exists 49; split; [reflexivity|unfold is_digit; lia]|]. split; [reflexivity|]. split; [discriminate|]. vm_compute. reflexivity.
Qed.
Print Assumptions C70_main_refuted.

(** Those in directories for subtitles, covers and codecs are not given beside them ... *)
Theorem C70_extra : forall entries isfile packed root rel l m d k n p, release_at root rel -> In m l -> main_sfv root rel m ->
  sfv_at (d ++ 47 :: k) n p -> ~ In 47 k -> extra_dir k -> ~ In p (remove_unwanted_sfvs entries isfile packed l root).
Proof. exact extra_out. Qed.
Print Assumptions C70_extra.
Example C70_extra_ex : extra_dir (str "VobSubs") /\ remove_unwanted_sfvs (fun _ => [str "a.rar"]) (fun _ => true) (fun _ => ([], false)) [str "/m/A/VobSubs/b.sfv"; str "/m/A/a.sfv"] (str "/m/A") = [str "/m/A/a.sfv"].
Proof. split; [vm_compute; tauto|vm_compute; reflexivity]. Qed.

(** ... nor those named after subtitles, unless the release is one of subtitles ... *)
Theorem C70_subs : forall entries isfile packed root rel l m d n p, release_at root rel -> In m l -> main_sfv root rel m ->
  sfv_at d n p -> within "vobsub" n \/ within "subtitle" n -> ~ subs_release rel -> ~ In p (remove_unwanted_sfvs entries isfile packed l root).
Proof. exact subs_out. Qed.
Print Assumptions C70_subs.
Example C70_subs_ex : within "vobsub" (str "a.VobSub.sfv") /\ ~ subs_release (str "A-GRP") /\
  remove_unwanted_sfvs (fun _ => [str "a.rar"]) (fun _ => true) (fun _ => ([], false)) [str "/m/A-GRP/a.VobSub.sfv"; str "/m/A-GRP/a.sfv"] (str "/m/A-GRP") = [str "/m/A-GRP/a.sfv"] /\
  remove_unwanted_sfvs (fun _ => [str "a.rar"]) (fun _ => true) (fun _ => ([], false)) [str "/m/A.SUBPACK-GRP/a.VobSub.sfv"; str "/m/A.SUBPACK-GRP/a.sfv"] (str "/m/A.SUBPACK-GRP") = [str "/m/A.SUBPACK-GRP/a.VobSub.sfv"; str "/m/A.SUBPACK-GRP/a.sfv"].
Proof.
  split; [apply within_b; vm_compute; reflexivity|]. split; [intros [H|[H|[H|H]]]; apply within_b in H; vm_compute in H; discriminate H|]. split; vm_compute; reflexivity.
Qed.

(** ... nor those in directories for proofs with one file that is no archive, is missing, cannot be read or has an image
    as its last file. *)
Theorem C70_proof : forall entries isfile packed root rel l m d k n p f, release_at root rel -> In m l -> main_sfv root rel m ->
  sfv_at (d ++ 47 :: k) n p -> ~ In 47 k -> proof_dir k -> entries p = [f] ->
  (~ (exists b, f = b ++ str ".rar") \/ isfile (pjoin (d ++ 47 :: k) f) = false \/
   snd (packed (pjoin (d ++ 47 :: k) f)) = true \/ exists l m, fst (packed (pjoin (d ++ 47 :: k) f)) = l ++ [m] /\ image m) ->
  ~ In p (remove_unwanted_sfvs entries isfile packed l root).
Proof. exact proof_out. Qed.
Print Assumptions C70_proof.
Example C70_proof_ex : proof_dir (str "Proof") /\ image (str "b.JPG") /\
  remove_unwanted_sfvs (fun _ => [str "a.rar"]) (fun _ => true) (fun _ => ([str "a.txt"; str "b.JPG"], false)) [str "/m/A/Proof/b.sfv"; str "/m/A/a.sfv"] (str "/m/A") = [str "/m/A/a.sfv"] /\
  remove_unwanted_sfvs (fun _ => [str "a.rar"]) (fun _ => true) (fun _ => ([str "b.JPG"; str "a.avi"], false)) [str "/m/A/Proof/b.sfv"; str "/m/A/a.sfv"] (str "/m/A") = [str "/m/A/Proof/b.sfv"; str "/m/A/a.sfv"].
Proof.
  split; [vm_compute; tauto|]. split; [apply image4; vm_compute; reflexivity|]. split; vm_compute; reflexivity.
Qed.

(** Whatever the names are, some SFV file is given when one lists music or more than one file. *)
Theorem C70_some : forall entries isfile packed root l sfv, In sfv l -> 1 < lenN (entries sfv) \/ (exists n, In n (entries sfv) /\ music_file n) ->
  remove_unwanted_sfvs entries isfile packed l root <> [].
Proof. exact some_kept. Qed.
Print Assumptions C70_some.
Example C70_some_ex : remove_unwanted_sfvs (fun s => if teqb s (str "/m/Sub.Sam-GRP/g-subsam.sfv") then [str "a.rar"; str "a.r00"] else [str "b.rar"]) (fun _ => true) (fun _ => ([], false))
  [str "/m/Sub.Sam-GRP/g-subsam.sfv"; str "/m/Sub.Sam-GRP/Subs/g-subsam-subs.sfv"] (str "/m/Sub.Sam-GRP") = [str "/m/Sub.Sam-GRP/g-subsam.sfv"].
Proof. vm_compute. reflexivity. Qed.

(** The SFV files that are not given are the others. *)
Theorem C70_unwanted : forall all wanted x, In x (get_unwanted_sfvs all wanted) <-> In x all /\ ~ In x wanted.
Proof. exact unwanted_in. Qed.
Print Assumptions C70_unwanted.
Example C70_unwanted_ex : get_unwanted_sfvs [str "a"; str "b"; str "c"] [str "b"] = [str "a"; str "c"].
Proof. vm_compute. reflexivity. Qed.

(** When each SFV file has the volumes of one set, in any order, the first volumes are given with their directories. *)
Theorem C70_first : forall entries sfvs sets, Forall2 (fun sfv s => style_ok (fst s) /\ (0 < snd s)%nat /\ N.of_nat (snd s) <= vol_limit (fst s) /\ Permutation (entries sfv) (vol_names (fst s) (snd s))) sfvs sets ->
  get_start_rar_files entries sfvs = map (fun x => pjoin (dirname (fst x)) (vol_name (fst (snd x)) 0)) (combine sfvs sets).
Proof. exact start_rars. Qed.
Print Assumptions C70_first.
Example C70_first_ex : style_ok (Num (str "a") 0) /\ Permutation [str "a.001"; str "a.000"] (vol_names (Num (str "a") 0) 2) /\
  get_start_rar_files (fun _ => [str "a.001"; str "a.000"]) [str "/m/A/CD1/a.sfv"; str "/m/A/CD2/a.sfv"] = [str "/m/A/CD1/a.000"; str "/m/A/CD2/a.000"].
Proof. split; [now left|]. split; [apply perm_swap|vm_compute; reflexivity]. Qed.
