(** Props_Movie: a movie inside RAR volumes is treated like the movie itself (C62). *)
From Verif Require Mp3 Mp3Facts Flac FlacSpec FlacFacts Mkv MkvSpec MkvEx MkvRetry Wmv WmvSpec WmvEx Mp4 Mp4Ex.
From Verif Require Import Base Crc SrsRec Srs StrmSrs Mp3Spec Avi AviSpec AviEx RarSpec VolSpec VolName Srr SetSpec Stream StreamSpec Prog ProgSpec ProgFacts AviProg AviProgFacts StrmProg StrmProgFacts MovieType MovieSpec MovieFacts MovieEx.

(** Code that only seeks, tells and reads gets the same result from a movie inside volumes as from the movie. *)
Theorem C62_program : forall A f path archived main (p : prog A), movie f path archived main ->
  open_run f path archived p = match run (flat_op main) 0 p with Ok r => Ok (fst r) | Err e => Err e end.
Proof. exact @open_same. Qed.
Print Assumptions C62_program.
(** The type of the movie is found as that of the movie itself, unless it begins with an ID3 tag. *)
Theorem C62_type : forall f path archived q main, movie_in f path archived main -> ~ rar_ending q -> fs_get f q = Some main -> 14 <= lenN main -> marked main -> ~ id3_start main -> ~ mp3_ending q ->
  exists t, t <> Unknown /\ file_type_info f q = Ok (t, []) /\ file_type_info f path = Ok (t, archived).
Proof. exact type_same. Qed.
Print Assumptions C62_type.
(** AVI samples are rebuilt from it as from the movie (then it is what C37 is about). *)
Theorem C62_avi : forall py_int f path main no_stored srs, movie_at f path main -> starts (bstr "RIFF") main -> 14 <= lenN main -> ~ mp3_ending path ->
  sample_restore_at py_int f no_stored AVI srs path = avi_restore no_stored srs main.
Proof. exact avi_at. Qed.
Print Assumptions C62_avi.
(** So are MKV samples, with the other places that are tried (C38, C61). *)
Theorem C62_mkv : forall py_int f path main no_stored srs, movie_at f path main -> starts [x1a; x45; xdf; xa3] main -> 14 <= lenN main ->
  sample_restore_at py_int f no_stored MKV srs path = MkvRetry.mkv_restore_all no_stored srs main.
Proof. exact mkv_at. Qed.
Print Assumptions C62_mkv.
(** So are WMV samples (C57). *)
Theorem C62_wmv : forall py_int f path main no_stored srs, movie_at f path main -> starts [x30; x26; xb2; x75; x8e; x66; xcf; x11] main -> 14 <= lenN main ->
  sample_restore_at py_int f no_stored WMV srs path = Wmv.wmv_restore no_stored srs main.
Proof. exact wmv_at. Qed.
Print Assumptions C62_wmv.
(** So are MP4 samples (C56), if the movie is the first file of the volumes. *)
Theorem C62_mp4 : forall py_int f path main no_stored srs a b, movie_at f path main -> starts ([x00; x00; a; b] ++ bstr "ftyp") main -> 14 <= lenN main -> movie f path [] main ->
  sample_restore_at py_int f no_stored MP4 srs path = Mp4.mp4_restore no_stored srs main.
Proof. exact mp4_at. Qed.
Print Assumptions C62_mp4.
(** If it is not, the data of the tracks is searched in the first file. *)
Theorem C62_mp4_refuted : exists f path main srs a b sample, movie_at f path main /\ starts ([x00; x00; a; b] ++ bstr "ftyp") main /\ 14 <= lenN main /\ Mp4.mp4_restore false srs main = Ok (Rebuilt sample) /\
  sample_restore_at Mp3Facts.digits_int f false MP4 srs path = Ok (Abort 3).
Proof. exact mp4_witness. Qed.
Print Assumptions C62_mp4_refuted.
(** So are FLAC files (C36). *)
Theorem C62_flac : forall py_int f path main no_stored srs, movie_at f path main -> starts (bstr "fLaC") main -> ~ starts (bstr "ftyp") (dropN 4 main) -> 14 <= lenN main ->
  sample_restore_at py_int f no_stored FLAC srs path = Flac.flac_restore srs main.
Proof. exact flac_at. Qed.
Print Assumptions C62_flac.
(** So are MP3 files (C35) without an ID3v2 tag. *)
Theorem C62_mp3 : forall py_int f path main no_stored srs, movie_at f path main -> sync main -> ~ starts (bstr "ftyp") (dropN 4 main) -> 14 <= lenN main ->
  sample_restore_at py_int f no_stored MP3 srs path = Mp3.mp3_restore py_int srs main.
Proof. exact mp3_at. Qed.
Print Assumptions C62_mp3.
(** So are samples in stream formats (C34). *)
Theorem C62_stream : forall py_int f path main no_stored srs, movie_at f path main -> ~ marked main -> ~ id3_start main -> 14 <= lenN main -> (forall d, fs_get f path = Some d -> ~ tag_at_end d) ->
  sample_restore_at py_int f no_stored STREAM srs path = stream_restore no_stored srs main.
Proof. exact stream_at. Qed.
Print Assumptions C62_stream.
(** An MP3 file with an ID3 tag: only 8 bytes of it are read and its type is not found. *)
Theorem C62_refuted : exists f path archived q main, movie_in f path archived main /\ ~ rar_ending q /\ fs_get f q = Some main /\ 14 <= lenN main /\ file_type_info f q = Ok (MP3, []) /\ file_type_info f path = Err TypeError.
Proof. exact id3_witness. Qed.
Print Assumptions C62_refuted.
(** A movie with its extension in capitals is not picked if it is not the first file. *)
Theorem C62_capital_refuted : exists f path name v main srs, in_volumes f path name main /\ volume_ok v /\ fs_get f path = Some (ser_volume v) /\ In name (names_in v) /\ lower name = str "a.avi" /\ Forall (fun n => n = name \/ ~ media_name n) (names_in v) /\
  starts (bstr "RIFF") main /\ 14 <= lenN main /\ avi_restore false srs main = Ok (Rebuilt (file_of e_its)) /\ sample_restore_at Mp3Facts.digits_int f false AVI srs path = Ok (Abort 1).
Proof. exact capital_witness. Qed.
Print Assumptions C62_capital_refuted.

(** two volumes with subtitles and a movie, and the movie beside them *)
Example C62_example : movie_in e_disk (str "set.rar") (str "a.avi") e_main /\ ~ rar_ending (str "b.avi") /\ fs_get e_disk (str "b.avi") = Some e_main /\ 14 <= lenN e_main /\ marked e_main /\ ~ id3_start e_main /\ ~ mp3_ending (str "b.avi") /\ ~ mp3_ending (str "set.rar").
Proof. exact e_type. Qed.
Example C62_avi_example : exists srs, avi_srs (str "pyReSample 0.7") (str "/tmp/a.avi") false (fun _ => 0) (file_of e_its) = Ok srs /\
  movie_at e_disk (str "set.rar") e_main /\ starts (bstr "RIFF") e_main /\ sample_restore_at Mp3Facts.digits_int e_disk false AVI srs (str "set.rar") = Ok (Rebuilt (file_of e_its)).
Proof. exact e_back. Qed.
Example C62_mkv_example : exists srs, Mkv.mkv_srs (str "pyReSample 0.7") (str "/tmp/a.mkv") false (fun _ => 0) (MkvSpec.file_of MkvEx.e_ps) = Ok srs /\
  movie_at k_disk (str "set.rar") MkvEx.e_main /\ starts [x1a; x45; xdf; xa3] MkvEx.e_main /\ 14 <= lenN MkvEx.e_main /\ sample_restore_at Mp3Facts.digits_int k_disk false MKV srs (str "set.rar") = Ok (Rebuilt (MkvSpec.file_of MkvEx.e_ps)).
Proof. exact k_back. Qed.
Example C62_wmv_example : exists srs, Wmv.wmv_srs (str "pyReSample 0.7") (str "/tmp/a.wmv") false (fun _ => 0) (WmvSpec.file_of WmvEx.e_a) = Ok srs /\
  movie_at w_disk (str "set.rar") WmvEx.e_main /\ starts [x30; x26; xb2; x75; x8e; x66; xcf; x11] WmvEx.e_main /\ 14 <= lenN WmvEx.e_main /\ sample_restore_at Mp3Facts.digits_int w_disk false WMV srs (str "set.rar") = Ok (Rebuilt (WmvSpec.file_of WmvEx.e_a)).
Proof. exact w_back. Qed.
Example C62_mp4_example : exists srs, Mp4.mp4_srs (str "pyReSample 0.7") (str "/tmp/a.mp4") false (fun _ => 0) p_sample = Ok srs /\
  movie_at p_disk (str "set.rar") Mp4Ex.e_main /\ starts ([x00; x00; x00; x0c] ++ bstr "ftyp") Mp4Ex.e_main /\ 14 <= lenN Mp4Ex.e_main /\ movie p_disk (str "set.rar") [] Mp4Ex.e_main /\
  sample_restore_at Mp3Facts.digits_int p_disk false MP4 srs (str "set.rar") = Ok (Rebuilt p_sample).
Proof. exact p_back. Qed.
Example C62_stream_example : exists srs, stream_srs (str "pyReSample 0.7") (str "/tmp/a.vob") (bstr "stream") false None = Ok (Some srs) /\ movie_at s_disk (str "set.rar") s_main /\ ~ marked s_main /\ ~ id3_start s_main /\ 14 <= lenN s_main /\
  (forall d, fs_get s_disk (str "set.rar") = Some d -> ~ tag_at_end d) /\ sample_restore_at Mp3Facts.digits_int s_disk false STREAM srs (str "set.rar") = Ok (Rebuilt (bstr "stream")).
Proof. exact s_back. Qed.
Example C62_flac_example : exists srs, Flac.flac_srs (str "pyReSample 0.7") (str "/tmp/a.flac") false 0 None f_sample = Ok srs /\
  movie_at f_disk (str "set.rar") f_main /\ starts (bstr "fLaC") f_main /\ ~ starts (bstr "ftyp") (dropN 4 f_main) /\ 14 <= lenN f_main /\ sample_restore_at Mp3Facts.digits_int f_disk false FLAC srs (str "set.rar") = Ok (Rebuilt f_sample).
Proof. exact f_back. Qed.
Example C62_mp3_example : exists srs, Mp3.mp3_srs Mp3Facts.digits_int (str "pyReSample 0.7") (str "/tmp/a.mp3") false 0 Mp3Facts.m_print m_sample = Ok srs /\
  movie_at m_disk (str "set.rar") m_main /\ sync m_main /\ ~ starts (bstr "ftyp") (dropN 4 m_main) /\ 14 <= lenN m_main /\ sample_restore_at Mp3Facts.digits_int m_disk false MP3 srs (str "set.rar") = Ok (Rebuilt m_sample).
Proof. exact m_back. Qed.
(** the size and two bytes of it *)
Example C62_program_example : movie e_disk (str "set.rar") (str "a.avi") e_main /\ open_run e_disk (str "set.rar") (str "a.avi") (ask n <- p_size; ask _ <- p_seek 48 FromStart; ask d <- p_read 4; Ret (n, d)) = Ok (lenN e_main, sub 48 4 e_main).
Proof. split; [right; exact (proj1 e_movie_in)|]. vm_compute. reflexivity. Qed.
