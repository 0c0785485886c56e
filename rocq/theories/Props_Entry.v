(** C94: the command srr: what it does and its exit status. *)
From Verif Require Import Base Path PathSpec Sfv Dirs DirsSpec Srr Entry EntrySpec EntryFacts EntryEx.

(** The input files decide what is done: nothing if one is missing or of another type, else the name of the first one says whether an SRR file is used or made. *)
Theorem C94_start : forall ex infiles, (start_of ex false false infiles = Stop 1 <-> ~ good_input ex infiles) /\
  (start_of ex false false infiles = Manage <-> good_input ex infiles /\ exists n l, infiles = (n ++ str ".srr") :: l) /\
  (start_of ex false false infiles = Create <-> good_input ex infiles /\ ~ exists n l, infiles = (n ++ str ".srr") :: l).
Proof. exact start_thm. Qed.
Print Assumptions C94_start.
Example C94_start_example : start_of (fun _ => true) false false [str "a.rar"; str "b.SFV"] = Create /\ start_of (fun _ => true) false false [str "a.srr"] = Manage /\
  start_of (fun _ => true) false false [str "a.srr"; str "b.txt"] = Stop 1.
Proof. exact (conj eq_refl (conj eq_refl eq_refl)). Qed.
(** Nothing is done if the temporary folder is missing or both ways of extracting are asked for. *)
Theorem C94_stop : forall ex temp_bad both infiles, temp_bad = true \/ both = true -> start_of ex temp_bad both infiles = Stop 1.
Proof. exact stop_thm. Qed.
Print Assumptions C94_stop.
Example C94_stop_example : start_of (fun _ => true) false true [str "a.srr"] = Stop 1 /\ start_of (fun _ => true) false false [str "a.srr"] <> Stop 1.
Proof. exact ex_stop. Qed.
(** Of several options just the first in rank is followed. *)
Theorem C94_choose : forall s, exists a, chosen s a /\ choose s = a /\ forall b, chosen s b -> b = a.
Proof. exact choose_thm. Qed.
Print Assumptions C94_choose.
Example C94_choose_example : choose (mkSw false true false true false true) = Details /\ chosen (mkSw false true false true false true) Details.
Proof. exact ex_choose. Qed.
(** The exit status is 0 just if the input is good and what was asked for has been done, as far as the functions of the package tell. *)
Theorem C94_status : forall ex s g created infiles, exit_status (start_of ex false false infiles) (manage s g) created = 0 <->
  good_input ex infiles /\ (((exists n l, infiles = (n ++ str ".srr") :: l) /\ exists a, chosen s a /\ succeeds g a) \/
    (~ (exists n l, infiles = (n ++ str ".srr") :: l) /\ created = Ret 0)).
Proof. exact status_thm. Qed.
Print Assumptions C94_status.
Example C94_status_example : exit_status (start_of (fun _ => true) false false [str "a.srr"]) (manage (x_only ExtractSome) x_given) OtherError = 0 /\
  exit_status (start_of (fun _ => true) false false [str "a.srr"]) (manage (x_only Extract) x_given) OtherError = 1 /\
  exit_status (start_of (fun _ => true) false false [str "a.srr"]) (manage (x_only Verify) x_given) OtherError = 10 /\
  exit_status (start_of (fun _ => true) false false [str "a.srr"]) (manage (x_only Rebuild) x_given) OtherError = 1 /\
  exit_status (start_of (fun _ => true) false false [str "a.SFV"; str "b.rar"]) (manage (x_only Rebuild) x_given) (Ret 0) = 0.
Proof. exact ex_status. Qed.
(** The SRR file that is made is the one given, or is named after the folder or the first input file and is in the output or the working directory. *)
Theorem C94_name : forall wd output infolder parent infile b e d p, basename infile = b ++ e -> lenN e = 4 -> plain (b ++ str ".srr") -> infolder = d ++ 47 :: p -> plain p -> plain (p ++ str ".srr") ->
  (named ".srr" output -> srr_name wd output infolder parent infile = output) /\
  (output = [] -> srr_name wd output infolder parent infile = in_folder wd ((if parent then p else b) ++ str ".srr")) /\
  (output <> [] -> ~ named ".srr" output -> srr_name wd output infolder parent infile = in_folder output ((if parent then p else b) ++ str ".srr")).
Proof. exact name_thm. Qed.
Print Assumptions C94_name.
Example C94_name_example : srr_name (str "/w") [] (str "/r/Rel") true (str "x.sfv") = str "/w/Rel.srr" /\ srr_name (str "/w") (str "out") (str "/r/Rel") false (str "/r/x.sfv") = str "out/x.srr" /\
  srr_name (str "/w") (str "o/y.SRR") (str "/r/Rel") true (str "x.sfv") = str "o/y.SRR".
Proof. exact ex_name. Qed.
(** The names shown of extracted files are those in the SRR file if the output folder is given in its normal form. *)
Theorem C94_shown_partial : forall out (cs : list text) name, normpath out = out -> out <> [] -> (forall d, out <> d ++ [47]) -> PathSpec.below cs name -> shown_name out name = name.
Proof. exact shown_thm. Qed.
Print Assumptions C94_shown_partial.
Example C94_shown_example : normpath (str "/o/x") = str "/o/x" /\ shown_name (str "/o/x") (str "Sample/a.srs") = str "Sample/a.srs" /\ shown_name (str "o/") (str "a.nfo") = str ".nfo".
Proof. exact ex_shown. Qed.
(** an SRR file with capitals in its extension is taken for a file to make an SRR file of *)
Theorem C94_capital_refuted : exists f, named ".srr" f /\ start_of (fun _ => true) false false [f] = Create.
Proof. exact (ex_intro _ (str "a.SRR") ex_capital). Qed.
Print Assumptions C94_capital_refuted.
(** with a slash at the end of the output folder the first letter of every shown name is missing *)
Theorem C94_shown_refuted : exists out name, PathSpec.below [name] name /\ shown_name out name <> name.
Proof. exact (ex_intro _ (str "o/") (ex_intro _ (str "a.nfo") ex_shown_bad)). Qed.
Print Assumptions C94_shown_refuted.
(** with a slash at the end of the input folder the SRR file gets no name *)
Theorem C94_slash_refuted : exists d, srr_name (str "/w") [] (d ++ [47]) true (str "x.sfv") = str "/w" ++ 47 :: str ".srr".
Proof. exact (ex_intro _ (str "/r/Rel") ex_slash). Qed.
Print Assumptions C94_slash_refuted.
