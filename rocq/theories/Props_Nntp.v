(** Props_Nntp: the theorems of C64, on files that are read from Usenet. *)
From Verif Require Import Base BaseFacts Nntp NntpSpec NntpFacts NntpEx.

(** the replies of every program, for names that are not those of RAR volumes *)
Theorem C64_reads : forall name new_server article head_lines less f size nzb cs, posted article name f size -> complete nzb f size ->
  segments f size <= 2 \/ (forall i, head_lines i <= 10) \/ apart f size 0 cs ->
  n_calls name false new_server article head_lines less (n_new nzb) cs = plains f 0 cs.
Proof. exact posted_reads. Qed.
Print Assumptions C64_reads.
(** a read over a segment of which only the first lines were grabbed gives other bytes *)
Theorem C64_lines_refuted : exists name article head_lines less f size nzb cs, posted article name f size /\ complete nzb f size /\
  n_calls name false false article head_lines less (n_new nzb) cs <> plains f 0 cs.
Proof.
  exists e_name, (serve e_name e_file 8 4), (fun _ => 20), (fun n => Z.of_N (n - 1)), e_file, 8, e_nzb, [NSeek 10 FromStart; NRead 2; NRead 8].
  split; [exact e_posted|]. split; [exact e_complete|]. intros H. vm_compute in H. discriminate H.
Qed.
Print Assumptions C64_lines_refuted.
(** "read at most size bytes": asking for more than there is fails *)
Theorem C64_end_refuted : exists name article f size nzb, posted article name f size /\ complete nzb f size /\ lenN f < 100 /\
  forall head_lines less, n_calls name false false article head_lines less (n_new nzb) [NRead 100] = [NError IndexError].
Proof.
  exists e_name, (serve e_name e_file 8 4), e_file, 8, e_nzb. split; [exact e_posted|]. split; [exact e_complete|]. split; [reflexivity|]. intros head_lines less. vm_compute. reflexivity.
Qed.
Print Assumptions C64_end_refuted.
(** a good volume is read one byte beside when a letter looks like the type of a block *)
Theorem C64_rar_refuted : exists name article f size nzb cs, posted article name f size /\ complete nzb f size /\ segments f size = 1 /\
  forall head_lines less, n_calls name true false article head_lines less (n_new nzb) cs <> plains f 0 cs.
Proof.
  exists r_name, (serve r_name r_file 38 4), r_file, 38, r_nzb, [NSeek 14 FromStart; NRead 7]. split; [exact r_posted|]. split; [exact r_complete|]. split; [reflexivity|]. intros head_lines less H. vm_compute in H. discriminate H.
Qed.
Print Assumptions C64_rar_refuted.
(** over all four segments, to the end and behind it *)
Example C64_reads_example : posted (serve e_name e_file 8 4) e_name e_file 8 /\ complete e_nzb e_file 8 /\
  n_calls e_name false false (serve e_name e_file 8 4) (fun _ => 0) (fun n => Z.of_N (n - 1)) (n_new e_nzb) [NSize; NSeek 0 FromStart; NRead 3; NTell; NSeek (-6) FromEnd; NRead (-1); NRead 5; NSeek 5 FromStart; NRead 19; NSeek (-1) FromHere; NRead 9; NSeek 30 FromStart] =
  [NPos 26; NPos 0; NData (bstr "ABC"); NPos 3; NPos 20; NData (bstr "UVWXYZ"); NData []; NPos 5; NData (bstr "FGHIJKLMNOPQRSTUVWX"); NPos 23; NError IndexError; NError IndexError].
Proof. split; [exact e_posted|]. split; [exact e_complete|]. vm_compute. reflexivity. Qed.
(** first lines of segments are grabbed, no read goes over the end of one *)
Example C64_apart_example : apart e_file 8 0 [NSeek 10 FromStart; NRead 2; NSeek 12 FromStart; NRead 4; NRead 3; NRead 5] /\
  n_calls e_name false false (serve e_name e_file 8 4) (fun _ => 20) (fun n => Z.of_N (n - 1)) (n_new e_nzb) [NSeek 10 FromStart; NRead 2; NSeek 12 FromStart; NRead 4; NRead 3; NRead 5] =
  [NPos 10; NData (bstr "KL"); NPos 12; NData (bstr "MNOP"); NData (bstr "QRS"); NData (bstr "TUVWX")].
Proof.
  split; [|vm_compute; reflexivity]. cbn [apart]. split; [exact I|]. split; [exists 1%Z; vm_compute; now split|]. split; [exact I|]. split; [exists 1%Z; vm_compute; split; discriminate|]. split; [exists 2%Z; vm_compute; split; discriminate|]. split; [exists 2%Z; vm_compute; split; discriminate|exact I].
Qed.
