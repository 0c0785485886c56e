(** C96: which data of a music file gets fingerprinted. *)
From Verif Require Import Base Fpcalc FpcalcSpec FpcalcFacts FpcalcEx.

(** The first of the strings Xing and LAME is found wherever it is, also across the borders of the batches; otherwise the strings are nowhere in the file. *)
Theorem C96_string : forall data, (forall i, string_index data = Ok i <-> first_at data i) /\ (string_index data = Err ValueError <-> forall i, ~ at_string data i).
Proof. exact string_thm. Qed.
Print Assumptions C96_string.
Example C96_string_example : string_index (x_file 3 5) = Ok 10 /\ string_index (bstr "LAM") = Err ValueError.
Proof. exact ex_string. Qed.
(** The data that is written depends on the last byte 0xFF of the 255 bytes from 256 before the string: its distance from the start of these bytes is taken off once more.
    (Intended: the data starts at the last frame before the string.) *)
Theorem C96_stripped_partial : forall data i, first_at data i -> (i < 256 -> stripped data = Err OSError) /\
  (256 <= i -> no_ff data (i - 256) (i - 1) -> stripped data = Ok (dropN (i - 255) data)) /\
  (forall p, 256 <= i -> last_ff data (i - 256) (i - 1) p -> (2 * (i - 256) < p -> stripped data = Err OSError) /\ (p <= 2 * (i - 256) -> stripped data = Ok (dropN (2 * (i - 256) - p) data))).
Proof. exact stripped_thm. Qed.
Print Assumptions C96_stripped_partial.
Example C96_stripped_example : (first_at (x_file 10 254) 266 /\ last_ff (x_file 10 254) 10 265 10) /\ stripped (x_file 10 254) = Ok (dropN 10 (x_file 10 254)).
Proof. exact (conj ex_strip_at (proj1 ex_strip)). Qed.
(** Just data before the string is left out. *)
Theorem C96_suffix : forall data out, stripped data = Ok out -> exists i start, first_at data i /\ start <= i /\ out = dropN start data.
Proof. exact suffix_thm. Qed.
Print Assumptions C96_suffix.
Example C96_suffix_example : stripped (x_file 10 254) = Ok (dropN 10 (x_file 10 254)) /\ string_index (x_file 10 254) = Ok 266.
Proof. exact ex_strip. Qed.
(** A result is read from the output of fpcalc just if there is a duration, a fingerprint and no error; the last of each counts. *)
Theorem C96_output : forall lines d p, parse lines = Some (d, p) <-> printed lines d p.
Proof. exact parse_thm. Qed.
Print Assumptions C96_output.
Example C96_output_example : parse [bstr "DURATION=12"; bstr "FINGERPRINT=AQAA"; bstr ""] = Some (bstr "12", bstr "AQAA") /\ parse [bstr "DURATION=12"] = None.
Proof. exact ex_parse. Qed.
(** The result is that of the first attempt that gives one: on the file, on its music data and on what is left of that after stripping. *)
Theorem C96_attempts : forall fpcalc music ascii data x y, fst (fingerprint fpcalc music 3 ascii data 0) = Ok (x, y) <->
  printed (fpcalc data) x y \/ ((forall a b, ~ printed (fpcalc data) a b) /\ exists d1, music data = Ok d1 /\
    (printed (fpcalc d1) x y \/ ((forall a b, ~ printed (fpcalc d1) a b) /\ exists d2, stripped d1 = Ok d2 /\ printed (fpcalc d2) x y))).
Proof. exact fingerprint_thm. Qed.
Print Assumptions C96_attempts.
Example C96_attempts_example : fingerprint x_calc x_music 3 false (x_file 10 254) 0 = (Ok (bstr "12", bstr "AQAA"), 0).
Proof. exact ex_print. Qed.
(** No temporary file stays just after a result or for a file with an ASCII name. *)
Theorem C96_clean_partial : forall fpcalc music ascii data, snd (fingerprint fpcalc music 3 ascii data 0) = 0 <-> (ascii = true \/ (exists r, fst (fingerprint fpcalc music 3 ascii data 0) = Ok r)).
Proof. exact left_thm. Qed.
Print Assumptions C96_clean_partial.
Example C96_clean_example : fingerprint x_calc x_music 3 false (x_file 10 254) 0 = (Ok (bstr "12", bstr "AQAA"), 0).
Proof. exact ex_print. Qed.
(** no temporary file stays at all: false, the copy of a file without ASCII name stays after a failure *)
Theorem C96_clean_refuted : exists fpcalc music data e, fingerprint fpcalc music 3 false data 0 = (Err e, 1).
Proof. exact (ex_intro _ x_calc (ex_intro _ x_music (ex_intro _ [x00] (ex_intro _ ValueError ex_left)))). Qed.
Print Assumptions C96_clean_refuted.
(** the data starts at the frame before the string: false, here it starts 112 bytes before it and the fingerprinting fails *)
Theorem C96_start_refuted : exists d, sync_at d 300 /\ first_at d 500 /\ (stripped d = Ok (dropN 188 d) /\ fst (fingerprint x_calc x_music 3 true d 0) = Err ValueError).
Proof. exact (ex_intro _ (x_file 300 198) ex_sign). Qed.
Print Assumptions C96_start_refuted.
(** a byte 0xFF counts just if it starts a frame: false, the byte after it is not looked at *)
Theorem C96_frame_refuted : exists d, stripped d = Ok (dropN (2 * (556 - 256) - 312) d) /\ string_index d = Ok 556 /\ sync_at d 300 /\ sub 312 2 d = [xff; x00].
Proof. exact (ex_intro _ x_noise ex_noise). Qed.
Print Assumptions C96_frame_refuted.
(** a frame before the string is always found: false for a string in the first 256 bytes *)
Theorem C96_short_refuted : exists d, sync_at d 1 /\ first_at d 37 /\ stripped d = Err OSError.
Proof. exact (ex_intro _ (x_file 1 34) ex_short). Qed.
Print Assumptions C96_short_refuted.
