(** C75: the SRR files that srr_sort lists. *)
From Verif Require Import Base BaseFacts RarSpec ReadSpec SrrSpec DirsSpec DirsFacts Verify VerifySpec VerifyFacts VerifyEx SelectEx StoredFacts Sorting SortingSpec SortingFacts SortingEx.

(** Without the options -p and -t a file is listed exactly if one of the options asks for it. *)
Theorem C75_check_partial : forall o l, srr_ok l -> o_noproof o = false -> o_nfos o = false -> exists r, check o (ser_srr l) = Ok r /\ (r = true <-> wanted o l).
Proof. exact check_ok. Qed.
Print Assumptions C75_check_partial.
Example C75_check_partial_ex : let o := mkOptions true false true false true false true true false true false false in srr_ok (vsrr four) /\ srr_ok twice /\ srr_ok two_nfos /\
  check (mkOptions true false true false true false true true false false false false) (ser_srr (vsrr four)) = Ok false /\ check o (ser_srr twice) = Ok true /\
  check (mkOptions false false false false true false true false false false false false) (ser_srr two_nfos) = Ok false /\
  check (mkOptions false false false false false false false true false false false false) (ser_srr two_nfos) = Ok true.
Proof. cbn zeta. split; [exact four_ok|]. split; [exact twice_ok|]. split; [exact two_nfos_ok|]. repeat split; vm_compute; reflexivity. Qed.

(** Each of the checks by itself. *)
Theorem C75_compressed : forall l, srr_ok l -> exists r, check_compression (ser_srr l) = Ok r /\ (r = true <-> exists h, has_packed l h /\ h_method h <> 0x30).
Proof. exact compression_ok. Qed.
Print Assumptions C75_compressed.
Theorem C75_empty : forall l, srr_ok l -> exists r, check_empty (ser_srr l) = Ok r /\ (r = true <-> forall h, ~ has_packed l h).
Proof. exact empty_ok. Qed.
Print Assumptions C75_empty.
Theorem C75_repack : forall l, srr_ok l -> exists r, check_repack (ser_srr l) = Ok r /\ (r = true <-> exists n, has_volume l n /\ repack n).
Proof. exact repack_ok. Qed.
Print Assumptions C75_repack.
Theorem C75_duplicates : forall l, srr_ok l -> exists r, check_duplicates (ser_srr l) = Ok r /\ (r = true <-> ~ NoDup (stored_names l)).
Proof. exact duplicates_ok. Qed.
Print Assumptions C75_duplicates.
Theorem C75_p2p : forall l, srr_ok l -> exists r, check_for_possible_nonscene (ser_srr l) = Ok r /\ (r = true <-> exists n, has_volume l n /\ lower n <> n).
Proof. exact p2p_ok. Qed.
Print Assumptions C75_p2p.
Theorem C75_nofiles : forall l, srr_ok l -> exists r, check_availability_stored_files (ser_srr l) = Ok r /\ (r = true <-> forall n, ~ has_stored l n).
Proof. exact files_ok. Qed.
Print Assumptions C75_nofiles.
Theorem C75_ext : forall l, srr_ok l -> forall e, exists r, check_for_ext (ser_srr l) (str e) = Ok r /\ (r = true <-> exists n, has_stored l n /\ DirsSpec.named e n).
Proof. exact ext_ok. Qed.
Print Assumptions C75_ext.
Theorem C75_no_ext : forall l, srr_ok l -> forall e, exists r, check_for_no_ext (ser_srr l) (str e) = Ok r /\ (r = true <-> forall n, has_stored l n -> ~ DirsSpec.named e n).
Proof. exact no_ext_ok. Qed.
Print Assumptions C75_no_ext.
Example C75_checks_ex : srr_ok (vsrr four) /\ check_compression (ser_srr (vsrr four)) = Ok false /\ check_empty (ser_srr (vsrr four)) = Ok false /\ check_empty (ser_srr twice) = Ok true /\
  check_repack (ser_srr (vsrr four)) = Ok false /\ check_duplicates (ser_srr twice) = Ok true /\ check_duplicates (ser_srr two_nfos) = Ok false /\ check_for_possible_nonscene (ser_srr two_nfos) = Ok true /\
  check_availability_stored_files (ser_srr (vsrr four)) = Ok true /\ check_for_ext (ser_srr twice) (str ".txt") = Ok true /\ check_for_no_ext (ser_srr twice) (str ".nfo") = Ok true /\
  srr_ok repacked /\ check_repack (ser_srr repacked) = Ok true.
Proof. repeat match goal with |- _ /\ _ => split | |- srr_ok repacked => exact repacked_ok | |- srr_ok _ => exact four_ok | |- _ => vm_compute; reflexivity end. Qed.

(** Images by the four extensions in small letters are found; with -p the first one decides. *)
Theorem C75_image_partial : forall l, srr_ok l -> exists r, check_image false (ser_srr l) = Ok r /\ (r = true <-> exists n, has_stored l n /\ image n).
Proof. exact image_ok. Qed.
Print Assumptions C75_image_partial.
Theorem C75_noproof_partial : forall l, srr_ok l -> exists r, check_image true (ser_srr l) = Ok r /\
  (r = true <-> exists a n b, stored_names l = a ++ n :: b /\ image n /\ ~ has_word "proof" n /\ forall m, In m a -> ~ image m).
Proof. exact noproof_ok. Qed.
Print Assumptions C75_noproof_partial.
Example C75_image_partial_ex : srr_ok two_images /\ check_image false (ser_srr two_images) = Ok true /\ check_image true (ser_srr two_nfos) = Ok false.
Proof. split; [exact two_images_ok|]. split; vm_compute; reflexivity. Qed.

(** Other images are not: .JPG and .jpeg. *)
Theorem C75_image_refuted : exists l, srr_ok l /\ (exists n, has_stored l n /\ lower n <> n /\ any_image n) /\ (exists n, has_stored l n /\ lower n = n /\ any_image n) /\ check_image false (ser_srr l) = Ok false.
Proof.
  exists upper_image. split; [exact upper_ok|]. split; [|split; [|vm_compute; reflexivity]].
  - exists (str "P/a.JPG"). split; [now left|]. split; [discriminate|]. apply (is_image _ ".jpg"%string (str ".JPG")); [vm_compute; reflexivity|cbn; tauto|reflexivity].
  - exists (str "b.jpeg"). split; [right; now left|]. split; [reflexivity|]. apply (is_image _ ".jpeg"%string (str ".jpeg")); [vm_compute; reflexivity|cbn; tauto|reflexivity].
Qed.
Print Assumptions C75_image_refuted.
(** With -p a proof hides the other images behind it. *)
Theorem C75_noproof_refuted : exists l n, srr_ok l /\ has_stored l n /\ image n /\ ~ has_word "proof" n /\ check_image true (ser_srr l) = Ok false.
Proof.
  exists two_images, (str "b.jpg"). split; [exact two_images_ok|]. split; [right; now left|]. split.
  - exists ".jpg"%string. split; [cbn; tauto|]. change (str ".jpg") with (extension (str "b.jpg")). apply extension_ok.
  - split; [|vm_compute; reflexivity]. intros H. apply in_word in H. vm_compute in H. discriminate H.
Qed.
Print Assumptions C75_noproof_refuted.

(** The check for two or more NFO files never finds any. *)
Theorem C75_nfos_never : forall data r, check_nfos data = Ok r -> r = false.
Proof. exact nfos_never. Qed.
Print Assumptions C75_nfos_never.
Theorem C75_nfos_refuted : exists l a b, srr_ok l /\ has_stored l a /\ has_stored l b /\ a <> b /\ DirsSpec.named ".nfo" a /\ DirsSpec.named ".nfo" b /\ check_nfos (ser_srr l) = Ok false.
Proof.
  exists two_nfos, (str "a.nfo"), (str "b.nfo"). split; [exact two_nfos_ok|]. split; [now left|]. split; [right; now left|]. split; [discriminate|].
  split; [now exists (str "a")|]. split; [now exists (str "b")|]. vm_compute. reflexivity.
Qed.
Print Assumptions C75_nfos_refuted.
