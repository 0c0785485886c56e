(** C97: the NZB files of samples. *)
From Verif Require Import Base Path SampleNzb SampleNzbSpec SampleNzbFacts SampleNzbEx.

(** A name is that of a sample just if an extension asked for is at its end, or just before the ending of a PAR2 file. *)
Theorem C97_sample : forall o n, is_sample o n = true <-> sample_name o n.
Proof. exact sample_thm. Qed.
Print Assumptions C97_sample.
Example C97_sample_example : map (is_sample (x_opt 0 [])) [str "A-sample.AVI"; str "a.avi.vol003+10.par2"; str "a.avi.par2"; str "a.avi.r00"; str "tel.aviv-ifh.r00"; str "a.mp4"] = [true; true; true; false; false; false].
Proof. exact ex_sample. Qed.
(** In Python 2: for each NZB file given that has samples, the NZB file with those that are not too large, in their order, is written to its place and nothing else is
    changed; the places have to be apart. *)
Theorem C97_main_partial : forall o args d, apart o args -> (forall p q r, makes o args d p q r -> main false o args d q = Some (Files r)) /\
  (forall q, (forall p r, ~ makes o args d p q r) -> main false o args d q = d q).
Proof. exact main_thm. Qed.
Print Assumptions C97_main_partial.
Example C97_main_example : (apart (x_opt 60 []) x_args /\ makes (x_opt 60 []) x_args x_disk (str "n/a.nzb") (str "n/samples/a.nzb") [x_smp; x_par]) /\
  main false (x_opt 60 []) x_args x_disk (str "n/samples/a.nzb") = Some (Files [x_smp; x_par]) /\ main false (x_opt 60 []) x_args x_disk (str "n/a.nzb") = x_disk (str "n/a.nzb").
Proof. exact (conj (conj ex_apart ex_makes) ex_main). Qed.
(** In Python 3: at all these places there are empty files. *)
Theorem C97_python3 : forall o args d, apart o args -> (forall p q r, makes o args d p q r -> main true o args d q = Some Empty) /\
  (forall q, (forall p r, ~ makes o args d p q r) -> main true o args d q = d q).
Proof. exact main3_thm. Qed.
Print Assumptions C97_python3.
Example C97_python3_example : main true (x_opt 60 []) x_args x_disk (str "n/samples/a.nzb") = Some Empty.
Proof. exact ex_main3. Qed.
(** Just files at such a place can change, apart or not. *)
Theorem C97_keep : forall py3 o args d q, (forall p, given args p -> nzb_name p -> ~ place o p q) -> main py3 o args d q = d q.
Proof. exact keep_thm. Qed.
Print Assumptions C97_keep.
Example C97_keep_example : main false (x_opt 60 []) x_args x_disk (str "n/samples/a.nzb") = Some (Files [x_smp; x_par]) /\ main false (x_opt 60 []) x_args x_disk (str "n/a.nzb") = x_disk (str "n/a.nzb").
Proof. exact ex_main. Qed.
(** the samples are in the NZB file that is made: false in Python 3, the bytes cannot be written to the text file *)
Theorem C97_python3_refuted : exists o args d p q r, makes o args d p q r /\ main true o args d q = Some Empty.
Proof. exact (ex_intro _ (x_opt 60 []) (ex_intro _ x_args (ex_intro _ x_disk (ex_intro _ (str "n/a.nzb") (ex_intro _ (str "n/samples/a.nzb") (ex_intro _ [x_smp; x_par] (conj ex_makes ex_main3))))))). Qed.
Print Assumptions C97_python3_refuted.
(** the NZB files given stay as they are: false if the output folder is theirs *)
Theorem C97_over_refuted : exists d, d (str "n/a.nzb") = Some (Files [x_rar; x_smp; x_big; x_par]) /\ main false (x_opt 60 (str "n")) x_args d (str "n/a.nzb") = Some (Files [x_smp; x_par])
  /\ main true (x_opt 60 (str "n")) x_args d (str "n/a.nzb") = Some Empty.
Proof. exact (ex_intro _ x_disk ex_over). Qed.
Print Assumptions C97_over_refuted.
(** the samples of all NZB files given are in the output folder: false for two of the same name *)
Theorem C97_name_refuted : exists d, d (str "a/x.nzb") = Some (Files [x_smp]) /\ main false (x_opt 60 (str "o")) [File (str "a/x.nzb"); File (str "b/x.nzb")] d (str "o/x.nzb") = Some (Files [x_par]).
Proof. exact (ex_intro _ x_two ex_two). Qed.
Print Assumptions C97_name_refuted.
(** just PAR2 files have the extension before the end: false, the dot before par2 is any character *)
Theorem C97_dot_refuted : exists c, c <> 46 /\ is_sample (x_opt 0 []) (str "a.avi" ++ c :: str "par2") = true.
Proof. exact (ex_intro _ 95 ex_dot). Qed.
Print Assumptions C97_dot_refuted.
