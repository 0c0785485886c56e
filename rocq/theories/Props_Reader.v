(** Properties of reading and writing blocks: C02, C22, C23, C45 (RAR and SRR), C46. *)
From Verif Require Import Base Rar RarSpec ReadSpec SrrSpec Samples CodeSpec CodeFacts TileSpec
  TermFacts ReadAllFacts Srr WriteFacts.

(** C02: whatever blocks the constructors produce, reading them back reports exactly what they were
    made from, at the right places. *)
Theorem C02_written_blocks_read_back : forall app parts bs,
  mapR write_part (PApp app :: parts) = Ok bs -> 20 <= lenN (concat bs) ->
  exists blks, read_all (concat bs) = Ok blks /\
    reported (concat bs) 0 (PApp app :: parts) bs blks.
Proof. exact parts_read_back. Qed.
Print Assumptions C02_written_blocks_read_back.
Definition C02_parts : list part :=
  [PStored (str "a.nfo") (bstr "text"); POso 70000 (str "00aB12ffee567899") (str "movie.mkv");
   PRar (str "CD1/x.r00"); PPad (bstr "zz"); PStored (8364 :: str "uro.txt") []].
Example C02_example : exists bs,
  mapR write_part (PApp (str "pyReScene") :: C02_parts) = Ok bs /\ 20 <= lenN (concat bs).
Proof. eexists. split; [vm_compute; reflexivity|vm_compute; discriminate]. Qed.

(** C02, whole files: every SRR of the format, also those of other tools, is read as its blocks. *)
Theorem C02_srr_files_read : forall l, srr_ok l -> read_all (ser_srr l) = Ok (sblks 0 l).
Proof. exact read_all_srr. Qed.
Print Assumptions C02_srr_files_read.
Example C02_srr_example : srr_ok srr1 /\ srr_ok srr2.
Proof. exact (conj srr1_ok srr2_ok). Qed.

(** the same for RAR volumes *)
Theorem C02_volumes_read : forall v, volume_ok v -> read_all (ser_volume v) = Ok (volume_blocks v).
Proof. exact read_all_volume. Qed.
Print Assumptions C02_volumes_read.
Example C02_volume_example : volume_ok vol1 /\ volume_ok vol2.
Proof. exact (conj vol1_ok vol2_ok). Qed.

(** C02 without its size condition is false: an SRR of less than 20 bytes is refused. *)
Theorem C02_short_file_refuted : exists app bs,
  mapR write_part [PApp app] = Ok bs /\ read_all (concat bs) = Err ValueError.
Proof. exists (str "short"), [ser_sitem (app_item (str "short"))]. split; vm_compute; reflexivity. Qed.
Print Assumptions C02_short_file_refuted.

(** C22: decoding any permitted encoding of a name gives the name... *)
Theorem C22_names_decode : forall std hi enc ops t,
  enc_groups enc ops -> nops_ok std 0 ops -> Forall scalar t -> nops_units std hi 0 ops = utf16 t ->
  unicode_decode std (hi :: enc) = Ok t.
Proof. exact decode_text. Qed.
Print Assumptions C22_names_decode.
(** ... and every name has one. *)
Theorem C22_every_name_has_an_encoding : forall std hi t, Forall scalar t ->
  exists enc ops, enc_groups enc ops /\ nops_ok std 0 ops /\ nops_units std hi 0 ops = utf16 t.
Proof. exact some_encoding. Qed.
Print Assumptions C22_every_name_has_an_encoding.
(** a run of two plain characters, one with the common high byte, a corrected run, and a character
    outside the basic plane *)
Definition C22_ops := [NRun 2; NHigh x1b; NRunC 2 x02; NPair x3d xd8; NPair x00 xde].
Definition C22_enc := [xde; x00; x1b; x80; x02; x3d; xd8; x80; x00; xde].
Example C22_example : enc_groups C22_enc C22_ops /\ nops_ok (bstr "abcdefg") 0 C22_ops /\
  nops_units (bstr "abcdefg") x04 0 C22_ops = utf16 [97; 98; 1051; 1126; 1127; 128512] /\
  unicode_decode (bstr "abcdefg") (x04 :: C22_enc) = Ok [97; 98; 1051; 1126; 1127; 128512].
Proof.
  split; [|split; [vm_compute; repeat split; discriminate|split; vm_compute; reflexivity]].
  apply (eg_four xde (NRun 2) (NHigh x1b) (NRunC 2 x02) (NPair x3d xd8) [x80; x00; xde] [NPair x00 xde]);
    try reflexivity.
  apply (eg_one x80 (NPair x00 xde)). reflexivity.
Qed.

(** C23: the six fields of a time stamp are the ones packed in it, and every 32 bit number is the
    stamp of exactly such fields. *)
Theorem C23_dos_time : forall y mo d h mi s2,
  dos_ok y mo d h mi s2 -> parse_dos_time (dos_stamp y mo d h mi s2) = (y, mo, d, h, mi, 2 * s2).
Proof. exact dos_decode. Qed.
Print Assumptions C23_dos_time.
Theorem C23_every_stamp : forall stamp, stamp < 4294967296 ->
  exists y mo d h mi s2, dos_ok y mo d h mi s2 /\ stamp = dos_stamp y mo d h mi s2.
Proof. exact dos_all. Qed.
Print Assumptions C23_every_stamp.
Example C23_example : dos_ok 2009 1 20 22 38 7 /\ dos_stamp 2009 1 20 22 38 7 = 0x3A34B4C7.
Proof. repeat split; discriminate. Qed.

(** C45 for RAR and SRR files: reading never runs out of steps, each step giving one block takes at
    least one byte, and more steps than bytes change nothing. *)
Theorem C45_rar_reading_ends : forall data,
  read_all data <> Err OutOfFuel /\
  forall bs, read_all data = Ok bs -> N.of_nat (List.length bs) <= lenN data.
Proof. exact read_all_ends. Qed.
Print Assumptions C45_rar_reading_ends.
Theorem C45_rar_steps_bounded : forall m data, exists r, r <> Err OutOfFuel /\
  forall fuel, (List.length data < fuel)%nat -> read_loop fuel m data st0 = r.
Proof. exact reading_ends. Qed.
Print Assumptions C45_rar_steps_bounded.
Example C45_rar_example : exists bs, read_all (ser_srr srr1) = Ok bs /\ (List.length bs = 17)%nat.
Proof. exists (sblks 0 srr1). split; vm_compute; reflexivity. Qed.

(** C46: the blocks lie in the file without gap or overlap. *)
Theorem C46_reading_partitions : forall data bs,
  read_all data = Ok bs -> exists m, reader_mode data = Ok m /\ tiles m data 0 false false bs.
Proof. exact read_all_tiles. Qed.
Print Assumptions C46_reading_partitions.
Example C46_example : exists bs, read_all (ser_volume vol1) = Ok bs /\
  map b_pos bs = [0; 7; 20; 60; 67] /\ lenN (ser_volume vol1) = 75.
Proof. eexists. split; [vm_compute; reflexivity|]. vm_compute. repeat split. Qed.
