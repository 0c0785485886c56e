(** Props_Mp3: MP3 files (C35, C44) and reading them (C45). *)
From Verif Require Import Base Crc SrsRec SrsRecSpec Srs StrmSpec Mp3 Mp3Spec Mp3Facts.

(** ** C35 *)
(** A file with the same audio, other tags and possibly more behind the audio gives the sample back, if the
    fingerprint (or the first 256 bytes of the audio if there is none) with the tags behind it does not look like
    other tags.  Not for samples with a Lyrics3v1 tag or less than 128 bytes of these; see the next theorem for
    those. *)
Theorem C35_partial : forall py_int, reads_digits py_int -> forall app name big offset fp front audio e tl srs front' more tl',
  well_formed front audio tl -> mp3_srs py_int app name big offset fp (mp3_file front audio tl) = Ok srs ->
  srs_ending audio fp e -> 128 <= lenN e -> tl_lyrics1 tl = None -> fits e tl -> well_formed front' (audio ++ more) tl' ->
  mp3_restore py_int srs (mp3_file front' (audio ++ more) tl') = Ok (Rebuilt (mp3_file front audio tl)).
Proof. exact mp3_exact. Qed.
Print Assumptions C35_partial.
(** the same for all samples, with the condition that the tags at the end of the SRS file can be told from what
    is in front of them *)
Theorem C35_general_partial : forall py_int, reads_digits py_int -> forall app name big offset fp front audio tl srs front' more tl',
  well_formed front audio tl -> mp3_srs py_int app name big offset fp (mp3_file front audio tl) = Ok srs ->
  (forall mid, srs = mp3_file front mid tl -> fits (concat front ++ mid) tl) -> well_formed front' (audio ++ more) tl' ->
  mp3_restore py_int srs (mp3_file front' (audio ++ more) tl') = Ok (Rebuilt (mp3_file front audio tl)).
Proof. exact mp3_exact_general. Qed.
Print Assumptions C35_general_partial.
(** What is said to be rebuilt from any main file has the CRC of the sample, its tags and as much audio. *)
Theorem C35_sound : forall py_int, reads_digits py_int -> forall app name big offset fp front audio tl srs main out,
  well_formed front audio tl -> mp3_srs py_int app name big offset fp (mp3_file front audio tl) = Ok srs ->
  (forall mid, srs = mp3_file front mid tl -> fits (concat front ++ mid) tl) ->
  mp3_restore py_int srs main = Ok (Rebuilt out) ->
  crc32 out = crc32 (mp3_file front audio tl) /\ exists data, out = mp3_file front data tl /\ lenN data = lenN audio.
Proof. exact mp3_sound. Qed.
Print Assumptions C35_sound.
(** An SRS can be created of every well formed file, and holds no more of the audio than its first 256 bytes.  [ps]:
    the size of the fingerprint with its header. *)
Theorem C35_created : forall py_int, reads_digits py_int -> forall app name base (big : bool) offset fp ps front audio tl a n,
  print_size fp ps -> well_formed front audio tl -> utf8_enc app = Some a -> lenN a < 2 ^ 16 ->
  after_slash name base -> utf8_enc base = Some n -> lenN n < 2 ^ 16 ->
  lenN audio < (if big then 2 ^ 64 else 2 ^ 32) -> lenN (mp3_file front audio tl) < 2 ^ 64 -> offset < 2 ^ 64 ->
  exists srs, mp3_srs py_int app name big offset fp (mp3_file front audio tl) = Ok srs /\
  lenN srs = lenN (mp3_file front (takeN 256 audio) tl) + 52 + lenN a + lenN n + (if big then 4 else 0) + ps.
Proof. exact mp3_creates. Qed.
Print Assumptions C35_created.
(** The fingerprint seems to hold an ID3v1 tag: not even the sample itself gives the sample back. *)
Theorem C35_refuted : exists fp front audio tl, well_formed front audio tl /\ exists srs,
  mp3_srs digits_int (str "pyReSample 0.7") (str "/tmp/a.mp3") false 0 (Some fp) (mp3_file front audio tl) = Ok srs /\
  exists wrong, mp3_restore digits_int srs (mp3_file front audio tl) = Ok (Mismatch wrong).
Proof. exists (215, bstr "AQAA_TAG" ++ repN 125 x41), [], m_audio, no_tl. exact tag_witness. Qed.
Print Assumptions C35_refuted.
(** Without a fingerprint, and when the first 256 bytes of the audio seem to hold an ID3v1 tag, the SRS cannot be
    read. *)
Theorem C35_unprinted_refuted : exists front audio tl, well_formed front audio tl /\ exists srs,
  mp3_srs digits_int (str "pyReSample 0.7") (str "/tmp/a.mp3") false 0 None (mp3_file front audio tl) = Ok srs /\ mp3_load_srs digits_int srs = Err ValueError.
Proof. exists [], t_audio, no_tl. exact tag_witness_none. Qed.
Print Assumptions C35_unprinted_refuted.
(** The SRS of a sample with a Lyrics3v1 tag cannot be read when it is small. *)
Theorem C35_lyrics : forall py_int, reads_digits py_int -> forall app name big offset fp front audio tl t g srs main,
  well_formed front audio tl -> mp3_srs py_int app name big offset fp (mp3_file front audio tl) = Ok srs ->
  tl_lyrics1 tl = Some t -> tl_lyrics2 tl = None -> tl_tag tl = Some g -> lenN srs < 5228 ->
  mp3_restore py_int srs main = Err OSError.
Proof. exact mp3_lyrics. Qed.
Print Assumptions C35_lyrics.
Theorem C35_lyrics_refuted : exists fp front audio tl, well_formed front audio tl /\ exists srs,
  mp3_srs digits_int (str "pyReSample 0.7") (str "/tmp/a.mp3") false 0 fp (mp3_file front audio tl) = Ok srs /\
  forall main, mp3_restore digits_int srs main = Err OSError.
Proof. exists m_print, [], l_audio, l_tl. exact (conj l_well lyrics_witness). Qed.
Print Assumptions C35_lyrics_refuted.
Example C35_example : reads_digits digits_int /\ well_formed m_front m_audio m_tl /\ srs_ending m_audio None m_audio /\ 128 <= lenN m_audio /\ tl_lyrics1 m_tl = None /\ fits m_audio m_tl /\
  (exists e, srs_ending m_audio m_print e /\ 128 <= lenN e /\ fits e m_tl) /\
  well_formed [] (m_audio ++ bstr "more") m_tl' /\
  forall fp, fp = None \/ fp = m_print -> exists srs, mp3_srs digits_int m_app m_name false 0 fp (mp3_file m_front m_audio m_tl) = Ok srs /\
  (forall mid, srs = mp3_file m_front mid m_tl -> fits (concat m_front ++ mid) m_tl).
Proof. exact ex_mp3. Qed.
Example C35_created_example : exists srs, mp3_srs digits_int m_app m_name false 0 m_print (mp3_file m_front m_audio m_tl) = Ok srs /\
  forall ps, print_size m_print ps -> lenN srs = lenN (mp3_file m_front m_audio m_tl) + 52 + 14 + 5 + ps.
Proof. exact (m_created m_print). Qed.

(** ** C44 *)
(** Data in front of the audio is skipped if there is no ID3v2 tag. *)
Theorem C44_partial : forall py_int, reads_digits py_int -> forall app name big offset fp front audio sig e tl srs junk more tl',
  well_formed front audio tl -> mp3_srs py_int app name big offset fp (mp3_file front audio tl) = Ok srs ->
  srs_ending audio fp e -> 128 <= lenN e -> tl_lyrics1 tl = None -> fits e tl -> signature_of audio sig ->
  well_formed [] (junk ++ audio ++ more) tl' -> ~ sync (junk ++ audio ++ more) -> first_occurs sig (junk ++ audio ++ more) (lenN junk) ->
  mp3_restore py_int srs (mp3_file [] (junk ++ audio ++ more) tl') = Ok (Rebuilt (mp3_file front audio tl)).
Proof. exact mp3_prepended. Qed.
Print Assumptions C44_partial.
(** With an ID3v2 tag the rebuild fails whenever there is less data than tag. *)
Theorem C44_tagged : forall py_int, reads_digits py_int -> forall app name big offset fp front audio sig e tl srs front' body tl' o,
  well_formed front audio tl -> mp3_srs py_int app name big offset fp (mp3_file front audio tl) = Ok srs ->
  srs_ending audio fp e -> 128 <= lenN e -> tl_lyrics1 tl = None -> fits e tl -> signature_of audio sig ->
  well_formed front' body tl' -> ~ sync body -> occurs audio body o -> first_occurs sig body o -> 0 < o < lenN (concat front') ->
  mp3_restore py_int srs (mp3_file front' body tl') = Err AssertionError.
Proof. exact mp3_prepended_tagged. Qed.
Print Assumptions C44_tagged.
Theorem C44_refuted : exists sample srs main, mp3_srs digits_int m_app m_name false 0 m_print sample = Ok srs /\
  (exists a b, main = a ++ m_audio ++ b) /\ mp3_restore digits_int srs sample = Ok (Rebuilt sample) /\ mp3_restore digits_int srs main = Err AssertionError.
Proof. exact tagged_witness. Qed.
Print Assumptions C44_refuted.
Example C44_example : well_formed [] (bstr "junk" ++ m_audio ++ bstr "more") m_tl' /\ ~ sync (bstr "junk" ++ m_audio ++ bstr "more") /\
  first_occurs m_audio (bstr "junk" ++ m_audio ++ bstr "more") (lenN (bstr "junk")).
Proof. exact ex_prepended. Qed.
Example C44_tagged_example : well_formed m_front' (bstr "RIFF" ++ m_audio) m_tl' /\ ~ sync (bstr "RIFF" ++ m_audio) /\ occurs m_audio (bstr "RIFF" ++ m_audio) 4 /\
  first_occurs m_audio (bstr "RIFF" ++ m_audio) 4 /\ 0 < 4 < lenN (concat m_front').
Proof. exact ex_tagged. Qed.

(** ** C45 for MP3 files and their SRS files *)
(** Reading ends for every file, with one step per byte at most in each loop. *)
Theorem C45_mp3 : forall py_int f, (forall d, py_int d <> Err OutOfFuel) -> mp3_blocks py_int f <> Err OutOfFuel.
Proof. exact mp3_reader_ends. Qed.
Print Assumptions C45_mp3.
Example C45_mp3_example : mp3_blocks digits_int (repN 128 x41) = Ok [mkM 128 (str "MP3") 0] /\ mp3_blocks digits_int (bstr "SRSF" ++ repN 128 x00) = Err ValueError.
Proof. split; vm_compute; reflexivity. Qed.
