(** RAR sets: C13, C14 (on a set), C19, C20. *)
From Verif Require Import Base BaseFacts RarSpec Samples SetSpec VolName VolSpec Srr Oso OsoSpec Stream StreamSpec VolFacts StreamFacts StreamThms.
From Coq Require Import Permutation.

(** C19: the name of the next volume *)
Theorem C19_next : forall s old i, style_ok s -> told s old -> i + 1 < vol_limit s ->
  next_archive (vol_name s i) old = Ok (vol_name s (i + 1)).
Proof. exact next_name. Qed.
Print Assumptions C19_next.
Example C19_example :
  style_ok (Old (str "a") (str ".RAR")) /\ vol_name (Old (str "a") (str ".RAR")) 100 = str "a.r99" /\
  next_archive (str "a.r99") false = Ok (str "a.s00") /\
  style_ok (New (str "a") (str ".part") (str ".rar") 2) /\
  next_archive (str "a.part09.rar") false = Ok (str "a.part10.rar") /\
  next_archive (str "a.part09.rar") true = Ok (str "a.part09.r00") /\
  next_archive (str "a.099") false = Ok (str "a.100").
Proof.
  split; [exact (case_change ".RAR" ".rar" eq_refl)|]. split; [reflexivity|]. split; [reflexivity|].
  split; [split; [exact (case_change ".part" ".part" eq_refl)|exact (case_change ".rar" ".rar" eq_refl)]|]. split; [reflexivity|]. split; reflexivity.
Qed.

(** C20: what counts as a RAR volume, and the first of each set *)
Theorem C20_is_rar : forall t, is_rar t = true <-> rar_ending t.
Proof. exact is_rar_spec. Qed.
Print Assumptions C20_is_rar.
Theorem C20_one_set : forall s n l, style_ok s -> (0 < n)%nat -> N.of_nat n <= vol_limit s ->
  Permutation l (vol_names s n) -> first_rars l = [vol_name s 0].
Proof. exact first_one. Qed.
Print Assumptions C20_one_set.
Theorem C20_many_sets : forall sets l, sets <> [] ->
  Forall (fun sn => style_ok (fst sn) /\ plain_style (fst sn) /\ (0 < snd sn)%nat /\ N.of_nat (snd sn) <= vol_limit (fst sn)) sets ->
  Permutation l (concat (map (fun sn => vol_names (fst sn) (snd sn)) sets)) ->
  forall x, In x (first_rars l) <-> exists sn, In sn sets /\ x = vol_name (fst sn) 0.
Proof. exact first_many. Qed.
Print Assumptions C20_many_sets.
(** two complete sets with numbers from 000: the second volume of one is selected too *)
Theorem C20_two_sets_refuted : exists l, Permutation l (vol_names (Num (str "a") 0) 2 ++ vol_names (Num (str "b") 0) 2) /\
  In (vol_name (Num (str "b") 0) 1) (first_rars l).
Proof.
  exists [str "a.001"; str "a.000"; str "b.000"; str "b.001"]. split; [apply perm_swap|]. vm_compute. auto.
Qed.
Print Assumptions C20_two_sets_refuted.
Example C20_example :
  rar_ending (str "x.R00") /\ is_rar (str "x.R00") = true /\ is_rar (str "x.q00") = false /\
  style_ok (Num (str "a") 0) /\ first_rars [str "a.002"; str "a.001"; str "a.000"] = [str "a.000"] /\
  Permutation [str "a.002"; str "a.001"; str "a.000"] (vol_names (Num (str "a") 0) 3) /\
  first_rars [str "cd1.r00"; str "cd2.part2.rar"; str "cd1.rar"; str "cd2.part1.rar"] = [str "cd1.rar"; str "cd2.part1.rar"].
Proof.
  split; [right; exists (str "x"), 82, 48, 48; unfold is_digit; repeat split; try lia; right; right; lia|]. split; [reflexivity|]. split; [reflexivity|].
  split; [now left|]. split; [reflexivity|]. split; [apply (Permutation_rev [str "a.002"; str "a.001"; str "a.000"])|reflexivity].
Qed.

(** C13: a file read through its volumes answers like the file *)
Theorem C13_stream : forall f s first name n middle any vols,
  on_disk f s first any vols -> asks name n vols -> (middle = true \/ starts_file vols) -> first_full (parts_of n vols) ->
  exists t, rar_stream f (vol_name s first) name middle any = Ok t /\
    t_len t = Z.of_N (lenN (concat (parts_of n vols))) /\
    forall ops, stream_run f t ops = flat_run (concat (parts_of n vols)) 0 ops.
Proof. exact stream_thm. Qed.
Print Assumptions C13_stream.
Theorem C13_absent : forall f s first m n middle any vols,
  on_disk f s first any vols -> asks (Some m) n vols -> (middle = true \/ starts_file vols) -> parts_of n vols = [] ->
  rar_stream f (vol_name s first) (Some m) middle any = Err AttributeError.
Proof. exact stream_absent. Qed.
Print Assumptions C13_absent.
(** the part in the first volume is empty: the first read returns nothing, as if at the end *)
Theorem C13_empty_part_refuted : exists f s n vols t,
  on_disk f s 0 false vols /\ asks (Some n) n vols /\ starts_file vols /\ concat (parts_of n vols) = bstr "de" /\
  rar_stream f (vol_name s 0) (Some n) false false = Ok t /\ stream_run f t [ORead 1] = [Data []] /\
  flat_run (bstr "de") 0 [ORead 1] = [Data (bstr "d")].
Proof. exact empty_part. Qed.
Print Assumptions C13_empty_part_refuted.
(** without a name, each volume's own first file is taken: two files come out as one *)
Theorem C13_no_name_refuted : exists f s vols t,
  on_disk f s 0 false vols /\ starts_file vols /\ concat (parts_of (str "a.txt") vols) = bstr "abc" /\
  rar_stream f (vol_name s 0) None false false = Ok t /\ stream_run f t [ORead (-1)] = [Data (bstr "abcx")].
Proof. exact no_name. Qed.
Print Assumptions C13_no_name_refuted.
Example C13_example :
  on_disk set_disk set_style 0 false [vol1; vol2] /\ asks (Some (str "a.txt")) (str "a.txt") [vol1; vol2] /\
  asks None (str "a.txt") [vol1; vol2] /\ starts_file [vol1; vol2] /\ first_full (parts_of (str "a.txt") [vol1; vol2]) /\
  concat (parts_of (str "a.txt") [vol1; vol2]) = bstr "abcde" /\
  flat_run (bstr "abcde") 0 [OSeek 1 FromStart; ORead 3; OTell; OSeek (-9) FromHere; ORead (-1); OSeek (-1) FromEnd] =
    [Pos 1; Data (bstr "bcd"); Pos 4; Refused; Data (bstr "e"); Pos 4].
Proof. exact set_example. Qed.

(** C14: the hash of a file inside a set is that of the file *)
Theorem C14_in_set : forall f s first name n middle vols,
  on_disk f s first false vols -> asks name n vols -> (middle = true \/ starts_file vols) -> parts_of n vols <> [] ->
  osohash_from f (vol_name s first) name middle = osorg_hash (concat (parts_of n vols)).
Proof. exact stream_hash_thm. Qed.
Print Assumptions C14_in_set.
Example C14_in_set_example :
  on_disk set_disk set_style 0 false [vol1; vol2] /\ asks (Some (str "a.txt")) (str "a.txt") [vol1; vol2] /\
  starts_file [vol1; vol2] /\ parts_of (str "a.txt") [vol1; vol2] = [bstr "abc"; bstr "de"] /\
  osohash_from set_disk (str "set.rar") (Some (str "a.txt")) false = Err ValueError.
Proof. exact set_hash_example. Qed.
