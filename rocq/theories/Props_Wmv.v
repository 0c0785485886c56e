(** Props_Wmv: WMV files: rebuilding (C57), reading (C45). *)
From Verif Require Import Base Crc SrsRec SrsRecSpec Srs StrmSpec Mp3Spec Avi Wmv WmvSpec WmvMain WmvMore WmvEnd WmvEx.

(** ** C57 *)
(** From the data of its streams, extracted into the files of tracks, the sample is rebuilt, whatever follows in the files
    and whatever other tracks there are. *)
Theorem C57_rebuilt : forall ap name big offset a srs (ts : tracks), wmv_ok a -> wmv_srs ap name big offset (file_of a) = Ok srs ->
  NoDup (map fst ts) -> (forall n, has_stream n (pieces_of a) -> exists t d, In (n, t) ts /\ t_file t = Some d /\ starts (data_of n (pieces_of a)) d) ->
  wmv_rebuild ts srs = Ok (file_of a, file_of a).
Proof. exact wmv_back. Qed.
Print Assumptions C57_rebuilt.
(** From the main file.  The streams are searched for if an offset is not known or the stored ones are not to be used; then
    each stream of the movie has to be one of the sample that has data, see below. *)
Theorem C57_partial : forall ap name big offset no_stored a srs main m, wmv_ok a -> wmv_srs ap name big offset (file_of a) = Ok srs -> movie_ok main m ->
  (exists at_, in_movie first_held a m at_ /\ (forall n, has_stream n (pieces_of m) -> data_of n (pieces_of a) <> []) /\
     (no_stored = true \/ exists n, is_track n a /\ offset n = 0)) \/
  (no_stored = false /\ (forall n, is_track n a -> offset n <> 0) /\ in_movie held a m offset) ->
  wmv_restore no_stored srs main = Ok (Rebuilt (file_of a)).
Proof. exact wmv_exact. Qed.
Print Assumptions C57_partial.
(** What is said to be rebuilt from any main file has the CRC of the sample, its objects and packets, and as much data in
    each payload. *)
Theorem C57_sound : forall ap name big offset no_stored a srs main out, wmv_ok a -> wmv_srs ap name big offset (file_of a) = Ok srs ->
  wmv_restore no_stored srs main = Ok (Rebuilt out) -> crc32 out = crc32 (file_of a) /\
  exists xs, Forall2 shaped (a_packets a) xs /\ out = objs_bytes (a_before a) ++ data_head a ++ concat xs ++ objs_bytes (a_after a).
Proof. exact wmv_sound. Qed.
Print Assumptions C57_sound.
(** An SRS can be created of every such sample, and is smaller by the data of the streams, but for what is added. *)
Theorem C57_created : forall ap name base (big : bool) offset a an n, wmv_ok a -> (exists k, is_track k a) ->
  (forall k, is_track k a -> offset k < 2 ^ 64 /\ lenN (data_of k (pieces_of a)) < (if big then 2 ^ 64 else 2 ^ 32)) ->
  utf8_enc ap = Some an -> lenN an < 2 ^ 16 -> after_slash name base -> utf8_enc base = Some n -> lenN n < 2 ^ 16 -> lenN (file_of a) < 2 ^ 64 ->
  exists srs ns, wmv_srs ap name big offset (file_of a) = Ok srs /\ NoDup ns /\ (forall k, In k ns <-> is_track k a) /\
  lenN srs + fold_right (fun k s => lenN (data_of k (pieces_of a)) + s) 0 ns <= lenN (file_of a) + (66 + lenN an + lenN n + 302 * lenN ns).
Proof. exact wmv_creates. Qed.
Print Assumptions C57_created.
(** A stream of the movie that the sample does not have stops the search. *)
Theorem C57_refuted : exists a srs main m at_, wmv_ok a /\ wmv_srs (str "pyReSample 0.7") (str "/tmp/a.wmv") false (fun _ => 0) (file_of a) = Ok srs /\ movie_ok main m /\
  in_movie first_held a m at_ /\ wmv_restore false srs main = Err IndexError.
Proof. exact strange_witness. Qed.
Print Assumptions C57_refuted.
(** So does a stream of the sample that has payloads but no data, here with the sample itself as the movie. *)
Theorem C57_empty_refuted : exists a srs, wmv_ok a /\ wmv_srs (str "pyReSample 0.7") (str "/tmp/a.wmv") false (fun _ => 0) (file_of a) = Ok srs /\ movie_ok (file_of a) a /\
  wmv_restore false srs (file_of a) = Err IndexError.
Proof. exact empty_witness. Qed.
Print Assumptions C57_empty_refuted.
(** If the last packets are as long as one packet when the data is taken away, the SRS, which is created all the same, is
    not read to its end. *)
Theorem C57_length_refuted : exists a srs at_, asf_ok a 54 /\ NoDup (declared (a_before a)) /\ declared (a_after a) = [] /\
  wmv_srs (str "pyReSample 0.7") (str "/tmp/a.wmv") false (fun _ => 0) (file_of a) = Ok srs /\ movie_ok (file_of a) a /\ in_movie first_held a a at_ /\
  (forall n, has_stream n (pieces_of a) -> data_of n (pieces_of a) <> []) /\ forall out, wmv_restore false srs (file_of a) <> Ok (Rebuilt out).
Proof. exact length_witness. Qed.
Print Assumptions C57_length_refuted.
Example C57_example : wmv_ok e_a /\ (exists k, is_track k e_a) /\ exists srs, wmv_srs (str "pyReSample 0.7") (str "/tmp/a.wmv") false (fun _ => 0) (file_of e_a) = Ok srs.
Proof. split; [exact e_ok|]. split; [exists 1; apply e_tracks; now left|exact e_created]. Qed.
Example C57_rebuilt_example : NoDup (map fst e_ts) /\
  forall n, has_stream n (pieces_of e_a) -> exists t d, In (n, t) e_ts /\ t_file t = Some d /\ starts (data_of n (pieces_of e_a)) d.
Proof. exact e_files. Qed.
Example C57_movie_example : movie_ok e_main e_m /\ in_movie first_held e_a e_m e_at /\ (forall n, has_stream n (pieces_of e_m) -> data_of n (pieces_of e_a) <> []) /\
  in_movie held e_a e_m e_at /\ forall n, is_track n e_a -> e_at n <> 0.
Proof. split; [exact e_movie|]. split; [exact e_in|]. split; [exact e_alike|]. split; [exact e_held|]. intros n _. unfold e_at. destruct (n =? 1); discriminate. Qed.
(** the offsets that are stored, with option -c *)
Example C57_stored_example : exists srs, wmv_srs (str "pyReSample 0.7") (str "/tmp/a.wmv") false e_at (file_of e_a) = Ok srs.
Proof. eexists. vm_compute. reflexivity. Qed.

(** ** C45 for WMV files and their SRS files *)
(** Profiling a file and creating an SRS ends, whatever its bytes are. *)
Theorem C45_wmv_profile : forall name f, wmv_profile name f <> Err OutOfFuel.
Proof. exact profile_ends. Qed.
Print Assumptions C45_wmv_profile.
Theorem C45_wmv_srs : forall ap name big offset f, wmv_srs ap name big offset f <> Err OutOfFuel.
Proof. exact srs_ends. Qed.
Print Assumptions C45_wmv_srs.
(** Packets are read to their end, those of an SRS as well. *)
Theorem C45_wmv_packet : forall srs data psize, get_packet srs data psize <> Err OutOfFuel.
Proof. exact packet_ends. Qed.
Print Assumptions C45_wmv_packet.
(** Rebuilding a sample ends unless where an object can be the size field is 0, in the SRS or in the main file. *)
Theorem C45_wmv_partial : forall no_stored srs main, wmv_restore no_stored srs main = Err OutOfFuel ->
  exists f pos, (f = srs \/ f = main) /\ pos + 24 <= lenN f /\ sub (pos + 16) 8 f = repN 8 x00.
Proof. exact restore_empty. Qed.
Print Assumptions C45_wmv_partial.
(** Such an object is read again and again, when an SRS is loaded and when a main file is searched. *)
Theorem C45_wmv_refuted : exists f, forall fuel s, asf_loop fuel Stored never (load_step f) f 0 s = Err OutOfFuel.
Proof. exact load_never. Qed.
Print Assumptions C45_wmv_refuted.
Theorem C45_wmv_find_refuted : exists f, forall fuel ts, asf_loop fuel Main fs_done (find_step f) f 0 (ts, fun _ => [], false) = Err OutOfFuel.
Proof. exact find_never. Qed.
Print Assumptions C45_wmv_find_refuted.
Example C45_wmv_example : wmv_restore false (repN 24 x00) [] = Err OutOfFuel /\ exists out, wmv_restore false (repN 24 x01) [] = out /\ out <> Err OutOfFuel.
Proof. split; [vm_compute; reflexivity|]. eexists. split; [vm_compute; reflexivity|discriminate]. Qed.
