(** C90: the RAR files of fixes that are stored. *)
From Verif Require Import Base Path PathSpec FsSpec Sfv Dirs DirsSpec Store Capital WorkDir WorkDirSpec WorkDirEx Fix FixSpec FixFacts FixEx.

(** A release is a storable fix just if its name has, in any case, one of the words for what is fixed, at most one character
    and fix or patch, or has one of the other forms. *)
Theorem C90_fix : forall n, one_line n -> is_storable_fix n = true <-> fix_name n.
Proof. exact fix_thm. Qed.
Print Assumptions C90_fix.
Example C90_fix_example :
  map is_storable_fix (map str ["A.NFO.Fix-G"; "A.ProofPatch-G"; "A.Proo_fix-G"; "A.FiX.XviD-G"; "A.FIX-G"; "A.DVDR.Fix-G"; "A.DVDR-REPACK.Fix-G"]%string) = repeat true 7 /\
  map is_storable_fix (map str ["Mr.Fix.It.XviD-G"; "Cant.Fix.Stupid-G"; "A.NFO..Fix-G"; "A.fix-G"; "A.FIX"; "A.dvdr.Fix-G"; "A.RAR.Fix-G"]%string) = repeat false 7.
Proof. exact ex_names. Qed.
(** The RAR file is stored, with its contents and at its place, just if the release is such a fix that is not on the list of exceptions,
    the only SFV file has one entry, and it has not been copied before.  Missing: a RAR file whose name in the SFV file has
    other capitals than on disk (see below). *)
Theorem C90_store_partial : forall lowf cwd listdir entries c0 r w rs sfv rar l d have,
  first_is 47 cwd = true -> denotes [] cwd c0 -> folder r -> denotes c0 r rs -> folder w -> apart r w -> one_line (basename r) -> entries sfv = Ok l ->
  alone lowf listdir d r (fst rar) (snd rar) ->
  exists d' new, store_fix lowf cwd listdir entries w r d [sfv] [file_in r rar] have = Ok (d', have ++ new) /\ (new = [] \/ new = [file_in w rar]) /\
  (In (file_in w rar) new <-> ~ In (file_in w rar) have /\ fix_name (basename r) /\ ~ In (basename r) rar_file_blacklist /\ exists f, l = [f]) /\
  (In (file_in w rar) new -> d' (file_in w rar) = d (file_in r rar)) /\ (forall p, ~ In p new -> d' p = d p).
Proof. exact store_thm. Qed.
Print Assumptions C90_store_partial.
Example C90_store_example : (first_is 47 (str "/") = true /\ denotes [] (str "/") [] /\ folder fr /\ denotes [] fr [str "A.NFOFIX-G"; str "r"] /\ folder xw /\ apart fr xw) /\ one_line (basename fr) /\
  alone lower f_list f_disk fr [] (str "X.rar") /\
  match store_fix lower (str "/") f_list f_entries xw fr f_disk [str "/r/A.NFOFIX-G/x.sfv"] [file_in fr ([], str "X.rar")] [str "/w/x.sfv"] with
  | Ok (d, l) => l = [str "/w/x.sfv"; str "/w/X.rar"] /\ d (str "/w/X.rar") = Some [x41] | Err _ => False end /\
  match store_fix lower (str "/") f_list f_entries xw fr f_disk [str "/r/A.NFOFIX-G/x.sfv"] [file_in fr ([], str "X.rar")] [str "/w/X.rar"] with
  | Ok (_, l) => l = [str "/w/X.rar"] | Err _ => False end.
Proof. exact ex_store. Qed.
(** With several SFV files or RAR sets, or none, nothing is stored. *)
Theorem C90_other : forall lowf cwd listdir entries r w d sfvs rars have, (length sfvs <> 1 \/ length rars <> 1)%nat ->
  store_fix lowf cwd listdir entries w r d sfvs rars have = Ok (d, have).
Proof. exact other_thm. Qed.
Print Assumptions C90_other.
Example C90_other_example : store_fix lower (str "/") f_list f_entries xw fr f_disk [str "/r/A.NFOFIX-G/x.sfv"] [str "a"; str "b"] [] = Ok (f_disk, []).
Proof. reflexivity. Qed.
(** RAR files of fixes of subtitles are not stored: false, the second expression takes them *)
Theorem C90_sub_refuted : exists n, one_line n /\ inside (str "SUB.FIX") n /\ ~ In n rar_file_blacklist /\ is_storable_fix n = true.
Proof. exact (ex_intro _ sub_fix ex_sub). Qed.
Print Assumptions C90_sub_refuted.
(** no file is copied twice: false if the SFV file has the name of the RAR file without its capitals and the file has been copied before, as a proof *)
Theorem C90_twice_refuted : exists listdir d r b e d1 d2, stands_for lower listdir d r [] b e /\
  copy_all lower (str "/") listdir xw r d [file_in r ([], e)] = Ok (d1, [str "/w/X.rar"]) /\
  store_fix lower (str "/") listdir f_entries xw r d1 [str "/r/A.NFOFIX-G/x.sfv"] [file_in r ([], b)] [str "/w/X.rar"] = Ok (d2, [str "/w/X.rar"; str "/w/X.rar"]).
Proof. exact (ex_intro _ f_list (ex_intro _ f_disk (ex_intro _ fr (ex_intro _ (str "x.rar") (ex_intro _ (str "X.rar") (ex_intro _ (twice_files f_disk) (ex_intro _ (twice_files (twice_files f_disk)) ex_twice))))))). Qed.
Print Assumptions C90_twice_refuted.
