(** FixEx: examples of fixes. *)
From Verif Require Import Base BaseFacts Path PathSpec FsSpec FsFacts Sfv Dirs DirsSpec DirsFacts Store StoreFacts Capital WorkDir WorkDirSpec WorkDirFacts WorkDirEx Fix FixSpec FixFacts.

Lemma ex_names : map is_storable_fix (map str ["A.NFO.Fix-G"; "A.ProofPatch-G"; "A.Proo_fix-G"; "A.FiX.XviD-G"; "A.FIX-G"; "A.DVDR.Fix-G"; "A.DVDR-REPACK.Fix-G"]%string) = repeat true 7 /\
  map is_storable_fix (map str ["Mr.Fix.It.XviD-G"; "Cant.Fix.Stupid-G"; "A.NFO..Fix-G"; "A.fix-G"; "A.FIX"; "A.dvdr.Fix-G"; "A.RAR.Fix-G"]%string) = repeat false 7.
Proof. vm_compute. now split. Qed.
Definition fr : text := str "/r/A.NFOFIX-G".
Definition f_list (p : text) : option (list text) := if teqb p fr then Some [str "X.rar"; str "x.sfv"] else None.
Definition f_disk (p : text) : option bytes := if teqb p (str "/r/A.NFOFIX-G/X.rar") then Some [x41] else None.
Definition f_entries (p : text) : result (list text) := if teqb p (str "/r/A.NFOFIX-G/x.sfv") then Ok [str "x.rar"] else Err FileNotFound.
Lemma f_apart : apart fr xw.
Proof.
  intros cs cs' E. destruct (place_begins cs fr) as (s & E1). destruct (place_begins cs' xw) as (s' & E2). rewrite E1, E2 in E. vm_compute in E. discriminate E.
Qed.
Lemma f_folders : first_is 47 (str "/") = true /\ denotes [] (str "/") [] /\ folder fr /\ denotes [] fr [str "A.NFOFIX-G"; str "r"] /\ folder xw /\ apart fr xw.
Proof.
  split; [reflexivity|]. split; [now apply denotes_split|]. split; [exists (str "/r/A.NFOFIX-"), 71; now split|]. split; [now apply denotes_split|]. split; [exists (str "/"), 119; now split|exact f_apart].
Qed.
Lemma f_line : one_line (basename fr).
Proof. intros H. vm_compute in H. repeat (destruct H as [H|H]; [discriminate|]). exact H. Qed.
Lemma f_alone : alone lower f_list f_disk fr [] (str "X.rar").
Proof.
  split; [constructor|]. split; [plain_|]. split; [vm_compute; discriminate|]. exists [str "X.rar"; str "x.sfv"]. split; [reflexivity|]. split; [plains|]. split; [vm_compute; tauto|].
  intros e H L. repeat (destruct H as [<-|H]; [try reflexivity; vm_compute in L; discriminate|]). destruct H.
Qed.
Lemma ex_store : (first_is 47 (str "/") = true /\ denotes [] (str "/") [] /\ folder fr /\ denotes [] fr [str "A.NFOFIX-G"; str "r"] /\ folder xw /\ apart fr xw) /\ one_line (basename fr) /\
  alone lower f_list f_disk fr [] (str "X.rar") /\
  match store_fix lower (str "/") f_list f_entries xw fr f_disk [str "/r/A.NFOFIX-G/x.sfv"] [file_in fr ([], str "X.rar")] [str "/w/x.sfv"] with
  | Ok (d, l) => l = [str "/w/x.sfv"; str "/w/X.rar"] /\ d (str "/w/X.rar") = Some [x41] | Err _ => False end /\
  match store_fix lower (str "/") f_list f_entries xw fr f_disk [str "/r/A.NFOFIX-G/x.sfv"] [file_in fr ([], str "X.rar")] [str "/w/X.rar"] with
  | Ok (_, l) => l = [str "/w/X.rar"] | Err _ => False end.
Proof. split; [exact f_folders|]. split; [exact f_line|]. split; [exact f_alone|]. vm_compute. tauto. Qed.
Definition sub_fix : text := str "Movie.SUB.FIX-GRP".
Lemma ex_sub : one_line sub_fix /\ inside (str "SUB.FIX") sub_fix /\ ~ In sub_fix rar_file_blacklist /\ is_storable_fix sub_fix = true.
Proof.
  split; [intros H; vm_compute in H; repeat (destruct H as [H|H]; [discriminate|]); exact H|]. split; [exists (str "Movie."), (str "-GRP"); reflexivity|].
  split; [apply mem_is; vm_compute; reflexivity|vm_compute; reflexivity].
Qed.
(** the RAR file has already been copied as a proof, with its name on disk *)
Definition twice_files (d : files) : files := put (str "/w/X.rar") [x41] d.
Lemma ex_twice : stands_for lower f_list f_disk fr [] (str "x.rar") (str "X.rar") /\
  copy_all lower (str "/") f_list xw fr f_disk [file_in fr ([], str "X.rar")] = Ok (twice_files f_disk, [str "/w/X.rar"]) /\
  store_fix lower (str "/") f_list f_entries xw fr (twice_files f_disk) [str "/r/A.NFOFIX-G/x.sfv"] [file_in fr ([], str "x.rar")] [str "/w/X.rar"] =
    Ok (twice_files (twice_files f_disk), [str "/w/X.rar"; str "/w/X.rar"]).
Proof.
  split; [|split; reflexivity]. split; [constructor|]. split; [plain_|]. split; [vm_compute; discriminate|]. split; [reflexivity|]. exists [str "X.rar"; str "x.sfv"].
  split; [reflexivity|]. split; [plains|]. split; [vm_compute; tauto|]. intros e H L. repeat (destruct H as [<-|H]; [try reflexivity; vm_compute in L; discriminate|]). destruct H.
Qed.
