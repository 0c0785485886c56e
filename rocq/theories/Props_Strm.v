(** Props_Strm: stream samples (C34) and reading their SRS files (C45). *)
From Verif Require Import Base Crc SrsRec SrsRecSpec Srs StrmSrs StrmSpec StrmFacts.

(** ** C34 *)
(** The search finds the first place of the signature, or reports that there is none. *)
Theorem C34_search : forall sig main, sig <> [] -> lenN sig <= 65536 -> exists r, search_stream sig main = Ok r /\
  ((exists o, r = Z.of_N o /\ first_occurs sig main o) \/ (r = (-1)%Z /\ forall o, ~ occurs sig main o)).
Proof. exact search_spec. Qed.
Print Assumptions C34_search.
(** A main file that holds the sample where its signature is first found gives the sample back, whether or
    not the offset stored in the SRS is used. *)
Theorem C34_rebuilt : forall app name sample big srs main sig o no_stored,
  stream_srs app name sample big None = Ok (Some srs) -> sample <> [] ->
  signature_of sample sig -> first_occurs sig main o -> occurs sample main o ->
  stream_restore no_stored srs main = Ok (Rebuilt sample).
Proof. exact stream_exact. Qed.
Print Assumptions C34_rebuilt.
(** the same when the SRS was checked against the main file and holds the offset *)
Theorem C34_checked : forall app name sample big srs main sig o no_stored,
  stream_srs app name sample big (Some main) = Ok (Some srs) -> sample <> [] ->
  signature_of sample sig -> first_occurs sig main o -> occurs sample main o ->
  stream_restore no_stored srs main = Ok (Rebuilt sample).
Proof. exact stream_exact_checked. Qed.
Print Assumptions C34_checked.
(** What is said to be rebuilt has the CRC and the size of the sample, whatever the main file is. *)
Theorem C34_sound : forall app name sample big check srs main no_stored out,
  stream_srs app name sample big check = Ok (Some srs) -> stream_restore no_stored srs main = Ok (Rebuilt out) ->
  crc32 out = crc32 sample /\ lenN out = lenN sample.
Proof. exact stream_sound. Qed.
Print Assumptions C34_sound.
(** An SRS can be created of every sample below 4 GiB, with --big-file of every sample. *)
Theorem C34_created : forall app name base sample (big : bool) a n, utf8_enc app = Some a -> lenN a < 2 ^ 16 ->
  after_slash name base -> utf8_enc base = Some n -> lenN n < 2 ^ 16 -> lenN sample < (if big then 2 ^ 64 else 2 ^ 32) ->
  exists srs, stream_srs app name sample big None = Ok (Some srs).
Proof. exact stream_creates. Qed.
Print Assumptions C34_created.
Example C34_example : exists srs, stream_srs (str "pyReSample 0.7") (str "/tmp/a.vob") ex_sample false None = Ok (Some srs) /\
  signature_of ex_sample ex_sample /\ first_occurs ex_sample ex_main 21 /\ occurs ex_sample ex_main 21.
Proof. exact ex_stream. Qed.
Example C34_checked_example : exists srs, stream_srs (str "pyReSample 0.7") (str "/tmp/a.vob") ex_sample false (Some ex_main) = Ok (Some srs) /\
  stream_restore false srs ex_main = Ok (Rebuilt ex_sample) /\ stream_restore true srs (bstr "words") = Ok (Abort 3).
Proof. exact ex_stream_checked. Qed.
Example C34_created_example : utf8_enc (str "app") = Some (bstr "app") /\ lenN (bstr "app") < 2 ^ 16 /\ after_slash (str "/tmp/a.vob") (str "a.vob") /\
  utf8_enc (str "a.vob") = Some (bstr "a.vob") /\ lenN (bstr "a.vob") < 2 ^ 16 /\ lenN ex_sample < 2 ^ 32.
Proof. exact ex_accept. Qed.

(** ** C45 for SRS files of streams *)
(** Reading ends after at most one block per byte if the first block has a size. *)
Theorem C45_stream_partial : forall fuel f pos, (pos = 0 -> unpack 4 f 4 <> Ok 0) -> pos <= lenN f ->
  lenN f < pos + N.of_nat fuel -> stream_blocks fuel f pos <> Err OutOfFuel.
Proof. exact blocks_end. Qed.
Print Assumptions C45_stream_partial.
(** A first block of size 0 is read again and again. *)
Theorem C45_stream_refuted : exists f, forall fuel, stream_blocks fuel f 0 = Err OutOfFuel.
Proof. exact stuck_witness. Qed.
Print Assumptions C45_stream_refuted.
Example C45_stream_example : unpack 4 (bstr "STRM" ++ [x08; x00; x00; x00]) 4 <> Ok 0 /\
  stream_blocks 9 (bstr "STRM" ++ [x08; x00; x00; x00]) 0 = Ok [mkBlock (bstr "STRM") 8 0].
Proof. exact ex_end. Qed.
