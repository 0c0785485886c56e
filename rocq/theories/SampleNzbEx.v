(** SampleNzbEx: examples of NZB files of samples. *)
From Verif Require Import Base BaseFacts Path SampleNzb SampleNzbSpec SampleNzbFacts.

Definition x_opt (max : Z) (out : text) : options := mkOptions false false false false false false (Ok max) out.
Definition x_rar : nfile := mkFile (str "a.rar") [100; 100]%Z.
Definition x_smp : nfile := mkFile (str "A-sample.AVI") [30; 20]%Z.
Definition x_par : nfile := mkFile (str "a-sample.avi.vol003+10.par2") [30]%Z.
Definition x_big : nfile := mkFile (str "a.mkv") [500]%Z.
Definition x_disk : disk := fun p => if teqb p (str "n/a.nzb") then Some (Files [x_rar; x_smp; x_big; x_par]) else None.
Definition x_args : list arg := [Folder (str "n") [str "b.txt"; str "a.nzb"]; Nothing].

Lemma ex_sample : map (is_sample (x_opt 0 [])) [str "A-sample.AVI"; str "a.avi.vol003+10.par2"; str "a.avi.par2"; str "a.avi.r00"; str "tel.aviv-ifh.r00"; str "a.mp4"] = [true; true; true; false; false; false].
Proof. vm_compute. reflexivity. Qed.
Lemma ex_main : main false (x_opt 60 []) x_args x_disk (str "n/samples/a.nzb") = Some (Files [x_smp; x_par]) /\ main false (x_opt 60 []) x_args x_disk (str "n/a.nzb") = x_disk (str "n/a.nzb").
Proof. split; vm_compute; reflexivity. Qed.
Lemma ex_given p : given x_args p -> nzb_name p -> p = str "n/a.nzb".
Proof.
  intros [[H|[H|[]]]|(f & names & n & [H|[H|[]]] & J & ->)] N0; try discriminate H. injection H as <- <-. destruct J as [<-|[<-|[]]]; [|reflexivity].
  apply nzb_is in N0. exfalso. revert N0. vm_compute. discriminate.
Qed.
Lemma ex_apart : apart (x_opt 60 []) x_args.
Proof.
  intros p q p' G G' N1 N2 P. apply ex_given in G; [|exact N1]. apply ex_given in G'; [|exact N2]. subst p p'. split; [|reflexivity]. destruct P as [(_ & ->)|(H & _)]; [|now destruct H]. vm_compute. discriminate.
Qed.
Lemma ex_makes : makes (x_opt 60 []) x_args x_disk (str "n/a.nzb") (str "n/samples/a.nzb") [x_smp; x_par].
Proof.
  split; [right; exists (str "n"), [str "b.txt"; str "a.nzb"], (str "a.nzb"); split; [now left|]; split; [right; now left|reflexivity]|].
  split; [apply nzb_is; vm_compute; reflexivity|]. split; [left; split; vm_compute; reflexivity|].
  exists [x_rar; x_smp; x_big; x_par]. split; [reflexivity|]. split; [|discriminate]. exact (take_is (x_opt 60 []) [x_rar; x_smp; x_big; x_par]).
Qed.
Lemma ex_main3 : main true (x_opt 60 []) x_args x_disk (str "n/samples/a.nzb") = Some Empty.
Proof. vm_compute. reflexivity. Qed.
(** the output folder is that of the NZB file *)
Lemma ex_over : x_disk (str "n/a.nzb") = Some (Files [x_rar; x_smp; x_big; x_par]) /\ main false (x_opt 60 (str "n")) x_args x_disk (str "n/a.nzb") = Some (Files [x_smp; x_par])
  /\ main true (x_opt 60 (str "n")) x_args x_disk (str "n/a.nzb") = Some Empty.
Proof. split; [|split]; vm_compute; reflexivity. Qed.
Lemma ex_dot : 95 <> 46 /\ is_sample (x_opt 0 []) (str "a.avi" ++ 95 :: str "par2") = true.
Proof. split; [discriminate|vm_compute; reflexivity]. Qed.
(** two NZB files of the same name *)
Definition x_two : disk := fun p => if teqb p (str "a/x.nzb") then Some (Files [x_smp]) else if teqb p (str "b/x.nzb") then Some (Files [x_par]) else None.
Lemma ex_two : x_two (str "a/x.nzb") = Some (Files [x_smp]) /\ main false (x_opt 60 (str "o")) [File (str "a/x.nzb"); File (str "b/x.nzb")] x_two (str "o/x.nzb") = Some (Files [x_par]).
Proof. split; vm_compute; reflexivity. Qed.
