(** Compression switches: C21. *)
From Verif Require Import Base VolSpec Flags FlagsSpec FlagsFacts.

(** C21: switch, size and description are those of the 3 bits of the flags, other bits do not matter *)
Theorem C21_dictionary : forall flags, dict_field flags <> 7 ->
  dict_parameter flags = str "-md" ++ [65 + dict_field flags] /\
  dict_size flags = Some (2 ^ (16 + dict_field flags)) /\
  exists t, get_dictionary flags = Ok (str "Dictionary size " ++ t ++ str " KiB") /\ decimal (2 ^ (6 + dict_field flags)) t.
Proof. exact dict_thm. Qed.
Print Assumptions C21_dictionary.
(** directories: no switch is announced by the code, but they get the one of 4 MiB *)
Theorem C21_directory : forall flags, dict_field flags = 7 ->
  get_dictionary flags = Ok (str "File is a directory") /\ dict_parameter flags = str "-mdG" /\ dict_size flags = Some (4096 * 1024).
Proof. exact dict_dir. Qed.
Print Assumptions C21_directory.
Theorem C21_method : forall m, (exists d, m = 0x30 + d /\ d <= 5 /\ compression_parameter m = Ok (str "-m" ++ dec 1 d)) \/
  ((m < 0x30 \/ 0x35 < m) /\ compression_parameter m = Err KeyError).
Proof. exact method_thm. Qed.
Print Assumptions C21_method.
Example C21_example :
  dict_field 0x94a3 = 5 /\ dict_parameter 0x94a3 = str "-mdF" /\ dict_size 0x94a3 = Some 2097152 /\
  dict_field 0x80e0 = 7 /\ compression_parameter 0x33 = Ok (str "-m3").
Proof. repeat split; reflexivity. Qed.
