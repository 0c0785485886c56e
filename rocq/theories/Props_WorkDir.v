(** Props_WorkDir: the copies of the files to store (C80). *)
From Verif Require Import Base Path PathSpec FsSpec Store Capital WorkDir WorkDirSpec WorkDirFacts WorkDirEx.

(** Files of the release, each the only one in its folder with its name in some case, are copied to the same places in
    the working directory, with their contents and names; no other file is changed. *)
Theorem C80_copied_partial : forall lowf cwd listdir c0 r w rs ws l d,
  first_is 47 cwd = true -> denotes [] cwd c0 -> folder r -> denotes c0 r rs -> folder w -> denotes c0 w ws -> apart r w ->
  Forall (fun x => alone lowf listdir d r (fst x) (snd x)) l ->
  exists d', copy_all lowf cwd listdir w r d (map (file_in r) l) = Ok (d', map (file_in w) l) /\
  (forall x, In x l -> d' (file_in w x) = d (file_in r x)) /\ (forall p, ~ In p (map (file_in w) l) -> d' p = d p).
Proof. intros lowf cwd listdir c0 r w rs ws l d A B C D E F G. exact (copied lowf cwd listdir c0 r w rs A B C D E G l d). Qed.
Print Assumptions C80_copied_partial.
Example C80_copied_example : (first_is 47 (str "/") = true /\ denotes [] (str "/") [] /\ folder xr /\ denotes [] xr [str "X-Y"; str "r"] /\ folder xw /\ denotes [] xw [str "w"]) /\
  apart xr xw /\ Forall (fun x => alone lower x_list x_disk xr (fst x) (snd x)) x_files /\
  match copy_all lower (str "/") x_list xw xr x_disk (map (file_in xr) x_files) with
  | Ok (d, l) => l = [str "/w/x.nfo"; str "/w/CD1/x.nfo"; str "/w/B.sfv"] /\ map d l = [Some [x41]; Some [x43]; Some [x42]]
  | Err _ => False end.
Proof. exact ex_copied. Qed.
(** A copy is stored in the SRR file under the path that the file has in the release. *)
Theorem C80_stored : forall cwd c0 w ws cs, first_is 47 cwd = true -> denotes [] cwd c0 -> folder w -> denotes c0 w ws ->
  cs <> [] -> Forall plain cs -> exists n, stored_name cwd true w (place w cs) = Ok n /\ below cs n.
Proof. intros cwd c0 w ws cs A B C D. exact (stored_place cwd c0 w ws A B C D cs). Qed.
Print Assumptions C80_stored.
Example C80_stored_example : stored_name (str "/") true xw (place xw [str "CD1"; str "x.nfo"]) = Ok (str "CD1/x.nfo").
Proof. reflexivity. Qed.
(** Two files whose names are equal but for case are copied to one place: the second is lost. *)
Theorem C80_refuted : exists listdir d r w names l d' c, folder r /\ folder w /\ apart r w /\ listdir r = Some names /\ Forall plain names /\
  (forall b, In b names <-> In ([], b) l) /\ NoDup l /\ (forall x, In x l -> d (file_in r x) <> None) /\
  copy_all lower (str "/") listdir w r d (map (file_in r) l) = Ok (d', [str "/w/X.nfo"; str "/w/X.nfo"]) /\
  d (file_in r ([], str "x.nfo")) = Some c /\ In ([], str "x.nfo") l /\ forall cs, d' (place w cs) <> Some c.
Proof. exact lost. Qed.
Print Assumptions C80_refuted.
(** A name from an SFV file that only differs in case from that of one file: this file is copied, and the copy has
    the name with capitals, if there is one. *)
Theorem C80_case : forall lowf cwd listdir c0 r w rs d ds b e c,
  first_is 47 cwd = true -> denotes [] cwd c0 -> folder r -> denotes c0 r rs -> folder w ->
  stands_for lowf listdir d r ds b e -> d (place r (ds ++ [e])) = Some c ->
  exists k, copy_to_working_dir lowf cwd listdir w r d (place r (ds ++ [b])) = Ok (put (place w (ds ++ [k])) c d, place w (ds ++ [k])) /\
  (k = b \/ k = e) /\ (lowf k = k -> lowf b = b /\ lowf e = e).
Proof. intros lowf cwd listdir c0 r w rs d ds b e c A B C D E. exact (copy_case lowf cwd listdir c0 r w rs A B C D E d ds b e c). Qed.
Print Assumptions C80_case.
(** A file that is not there is not copied, and nothing else happens. *)
Theorem C80_missing : forall lowf cwd listdir c0 r w rs d ds b,
  first_is 47 cwd = true -> denotes [] cwd c0 -> folder r -> denotes c0 r rs -> folder w ->
  nowhere lowf listdir d r ds b ->
  copy_to_working_dir lowf cwd listdir w r d (place r (ds ++ [b])) = Ok (d, place w (ds ++ [b])).
Proof. intros lowf cwd listdir c0 r w rs d ds b A B C D E. exact (copy_missing lowf cwd listdir c0 r w rs A B C D E d ds b). Qed.
Print Assumptions C80_missing.
Example C80_case_example : (first_is 47 (str "/") = true /\ denotes [] (str "/") [] /\ folder xr /\ denotes [] xr [str "X-Y"; str "r"] /\ folder xw /\ denotes [] xw [str "w"]) /\
  stands_for lower x_list x_disk xr [] (str "b.sfv") (str "B.sfv") /\ nowhere lower x_list x_disk xr [] (str "c.sfv").
Proof. exact ex_case. Qed.
(** .srs files of the release are copied, each once, unless one has been made for the same place; those stay. *)
Theorem C80_srs_partial : forall lowf cwd listdir c0 r w rs l d have,
  first_is 47 cwd = true -> denotes [] cwd c0 -> folder r -> denotes c0 r rs -> folder w -> apart r w ->
  Forall (fun x => alone lowf listdir d r (fst x) (snd x)) l ->
  exists d' new, copy_srs lowf cwd listdir w r d have (map (file_in r) l) = Ok (d', have ++ new) /\ NoDup new /\
  (forall p, In p new <-> ~ In p have /\ exists x, In x l /\ p = file_in w x) /\
  (forall x, In x l -> ~ In (file_in w x) have -> d' (file_in w x) = d (file_in r x)) /\ (forall p, ~ In p new -> d' p = d p).
Proof. intros lowf cwd listdir c0 r w rs l d have A B C D E F. exact (srs_copied lowf cwd listdir c0 r w rs A B C D E F l d have). Qed.
Print Assumptions C80_srs_partial.
Example C80_srs_example : apart xr xw /\ Forall (fun x => alone lower s_list s_disk xr (fst x) (snd x)) s_files /\
  match copy_srs lower (str "/") s_list xw xr s_disk [str "/w/s.srs"] (map (file_in xr) s_files) with
  | Ok (d, l) => l = [str "/w/s.srs"; str "/w/t.srs"] /\ map d l = [Some [x44]; Some [x42]]
  | Err _ => False end.
Proof. exact ex_srs. Qed.
