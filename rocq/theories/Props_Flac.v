(** Props_Flac: FLAC files (C36), reading them (C45), fingerprints (C55). *)
From Verif Require Import Base Crc SrsRec SrsRecSpec Srs StrmSpec Mp3 Mp3Spec Mp3Facts Flac FlacSpec FlacFacts.

(** ** C36 *)
(** A file with the same audio frames, whatever its tags and metadata are, gives the sample back.  Not for samples
    with ID3 tags; see below. *)
Theorem C36_partial : forall app name big offset fp blocks last frames srs pieces tag,
  sample_ok blocks last frames -> print_ok fp -> flac_srs app name big offset fp (flac_sample blocks last frames) = Ok srs ->
  flac_ok pieces frames tag -> pieces <> [] ->
  flac_restore srs (flac_file pieces frames tag) = Ok (Rebuilt (flac_sample blocks last frames)).
Proof. exact flac_exact. Qed.
Print Assumptions C36_partial.
(** What is said to be rebuilt from any main file has the CRC of the sample, its metadata and at least as much audio. *)
Theorem C36_sound : forall app name big offset fp blocks last frames srs main out,
  sample_ok blocks last frames -> print_ok fp -> flac_srs app name big offset fp (flac_sample blocks last frames) = Ok srs ->
  flac_restore srs main = Ok (Rebuilt out) ->
  crc32 out = crc32 (flac_sample blocks last frames) /\ exists data, out = flac_sample blocks last data /\ lenN frames <= lenN data.
Proof. exact flac_sound. Qed.
Print Assumptions C36_sound.
(** An SRS can be created of every such sample, and of those with tags, and holds no more of the audio than its first
    256 bytes.  [ps]: the size of the fingerprint with its header. *)
Theorem C36_created : forall app name base (big : bool) offset fp ps ids blocks last frames tag a n,
  print_ok fp -> fprint_size fp ps -> tagged_ok ids blocks last frames tag -> utf8_enc app = Some a -> lenN a < 2 ^ 16 ->
  after_slash name base -> utf8_enc base = Some n -> lenN n < 2 ^ 16 ->
  lenN frames < (if big then 2 ^ 64 else 2 ^ 32) -> lenN (tagged_sample ids blocks last frames tag) < 2 ^ 64 -> offset < 2 ^ 64 ->
  exists srs, flac_srs app name big offset fp (tagged_sample ids blocks last frames tag) = Ok srs /\
  lenN srs = lenN (tagged_sample ids blocks last (takeN 256 frames) tag) + 44 + lenN a + lenN n + (if big then 4 else 0) + ps.
Proof. exact flac_creates. Qed.
Print Assumptions C36_created.
(** A sample with an ID3 tag cannot be rebuilt from any file with the same audio. *)
Theorem C36_tagged : forall app name big offset fp ids blocks last frames tg srs pieces tag,
  tagged_ok ids blocks last frames tg -> print_ok fp -> flac_srs app name big offset fp (tagged_sample ids blocks last frames tg) = Ok srs ->
  ids <> [] \/ tg <> None -> flac_ok pieces frames tag -> pieces <> [] ->
  flac_restore srs (flac_file pieces frames tag) = Err TypeError.
Proof. exact flac_tagged. Qed.
Print Assumptions C36_tagged.
Theorem C36_refuted : exists ids blocks last frames tag, tagged_ok ids blocks last frames tag /\ exists srs,
  flac_srs (str "pyReSample 0.7") (str "/tmp/a.flac") false 0 x_print (tagged_sample ids blocks last frames tag) = Ok srs /\
  flac_restore srs (tagged_sample ids blocks last frames tag) = Err TypeError.
Proof. exact flac_tagged_witness. Qed.
Print Assumptions C36_refuted.
Example C36_example : sample_ok x_blocks x_last x_frames /\ print_ok x_print /\ flac_ok x_pieces x_frames (Some m_tag) /\ x_pieces <> [] /\
  exists srs, flac_srs m_app x_name false 0 x_print (flac_sample x_blocks x_last x_frames) = Ok srs.
Proof. exact ex_flac. Qed.
Example C36_created_example : exists srs, flac_srs m_app x_name false 0 x_print (flac_sample x_blocks x_last x_frames) = Ok srs /\
  lenN srs = lenN (flac_sample x_blocks x_last x_frames) + 91.
Proof. exact ex_flac_created. Qed.
Example C36_tagged_example : tagged_ok m_front x_blocks x_last x_frames (Some m_tag) /\ m_front <> [] /\ exists srs,
  flac_srs m_app x_name false 0 x_print (tagged_sample m_front x_blocks x_last x_frames (Some m_tag)) = Ok srs.
Proof. exact ex_tagged_flac. Qed.

(** ** C45 for FLAC files and their SRS files *)
(** Reading ends for every file and everything done with the blocks, after one step per byte and two more at most. *)
Theorem C45_flac : forall (S : Type) (act : S -> fblock -> result (S * move)) f, (forall s b, act s b <> Err OutOfFuel) ->
  forall s, flac_read act f s <> Err OutOfFuel.
Proof. exact @flac_reader_ends. Qed.
Print Assumptions C45_flac.
(** a file in which the reader goes back: the audio seems to begin inside the tag *)
Example C45_flac_example : (forall s b, note s b <> Err OutOfFuel) /\
  flac_read note (bstr "TAG" ++ repN 125 x41 ++ meta 1 (repN 2 x00)) [] = Ok [mkF (Named (str "TAG")) 128 [] 0; mkF (Num 1) 2 (x01 :: be 3 2) 128] /\
  flac_read note (meta 1 (bstr "TAG" ++ repN 121 x41) ++ [xff; x00; x00; x00]) [] = Ok [mkF (Num 1) 124 (x01 :: be 3 124) 0; mkF (Num 255) (-124) [] 128; mkF (Named (str "TAG")) 128 [] 4].
Proof. split; [discriminate|]. split; vm_compute; reflexivity. Qed.

(** ** C55 *)
Theorem C55_mp3_partial : forall py_int, reads_digits py_int -> forall app name big offset fp front audio tl srs,
  well_formed front audio tl -> mp3_srs py_int app name big offset fp (mp3_file front audio tl) = Ok srs ->
  (forall mid, srs = mp3_file front mid tl -> fits (concat front ++ mid) tl) ->
  (forall d s, fp = Some (d, s) -> d < 2 ^ 32 /\ lenN s + 16 < 2 ^ 32) ->
  exists d t, mp3_load_srs py_int srs = Ok (d, [(1, t)]) /\ t_print t = fp.
Proof. exact mp3_fingerprint. Qed.
Print Assumptions C55_mp3_partial.
Theorem C55_flac : forall app name big offset fp ids blocks last frames tg srs,
  tagged_ok ids blocks last frames tg -> print_ok fp -> (forall d t, fp = Some (d, t) -> d < 2 ^ 32) ->
  flac_srs app name big offset fp (tagged_sample ids blocks last frames tg) = Ok srs ->
  exists d t, flac_load_srs srs = Ok (d, [(1, t)]) /\ t_print t = fp.
Proof. exact flac_fingerprint. Qed.
Print Assumptions C55_flac.
Example C55_example : (forall d s, m_print = Some (d, s) -> d < 2 ^ 32 /\ lenN s + 16 < 2 ^ 32) /\ (forall d t, x_print = Some (d, t) -> d < 2 ^ 32) /\
  (exists srs, mp3_srs digits_int m_app m_name false 0 m_print (mp3_file m_front m_audio m_tl) = Ok srs /\ (forall mid, srs = mp3_file m_front mid m_tl -> fits (concat m_front ++ mid) m_tl)).
Proof. exact ex_prints. Qed.
