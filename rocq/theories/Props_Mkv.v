(** Props_Mkv: MKV files: rebuilding (C38), reading (C45). *)
From Verif Require Import Base Crc SrsRec SrsRecSpec Srs StrmSpec Mp3Spec Mkv MkvSpec MkvMain MkvMore MkvEnd MkvEx.

(** ** C38 *)
(** From the data of its tracks, extracted into files, and its attachments the sample is rebuilt, whatever follows in the
    files of the tracks and whatever other tracks and attachments there are. *)
Theorem C38_rebuilt : forall ap name big offset ps srs (ts : mtracks) atts, mkv_ok ps -> mkv_srs ap name big offset (file_of ps) = Ok srs -> NoDup (map fst ts) -> NoDup (map fst atts) ->
  (forall b, In (Blk b) (all_items ps) -> exists t d, In (k_no b, t) ts /\ m_file t = Some d /\ starts (data_of (k_no b) (all_items ps)) d) ->
  (forall nm d, In (Some nm, d) (files_of (all_items ps)) -> In (nm, Some d) atts) ->
  mkv_rebuild NEW_FLAGS ts atts srs = Ok (file_of ps).
Proof. exact mkv_back. Qed.
Print Assumptions C38_rebuilt.
(** From the main file.  The tracks are searched for if an offset is not known, the stored ones are not to be used or
    there is a track of more than 1000000 bytes. *)
Theorem C38_partial : forall ap name big offset no_stored ps srs main ms, mkv_ok ps -> mkv_srs ap name big offset (file_of ps) = Ok srs -> movie_ok main ms ->
  (exists at_, in_movie first_held (all_items ps) (all_items ms) at_ /\ alike (all_items ps) (all_items ms) /\
     (no_stored = true \/ (exists n, has_track n (all_items ps) /\ offset n = 0) \/ in_movie held (all_items ps) (all_items ms) offset)) \/
  (no_stored = false /\ (forall n, has_track n (all_items ps) -> offset n <> 0 /\ lenN (data_of n (all_items ps)) <= 1000000) /\ in_movie held (all_items ps) (all_items ms) offset) ->
  mkv_restore no_stored srs main = Ok (Rebuilt (file_of ps)).
Proof. exact mkv_exact. Qed.
Print Assumptions C38_partial.
(** What is said to be rebuilt from any main file has the CRC of the sample, its elements, and as much data in each block. *)
Theorem C38_sound : forall ap name big offset no_stored ps srs main out, mkv_ok ps -> mkv_srs ap name big offset (file_of ps) = Ok srs -> mkv_restore no_stored srs main = Ok (Rebuilt out) ->
  crc32 out = crc32 (file_of ps) /\ exists xs, out = concat xs /\ Forall2 shaped (all_items ps) xs.
Proof. exact mkv_sound. Qed.
Print Assumptions C38_sound.
(** An SRS can be created of every such sample that has tracks, and is smaller by the data of the tracks and the
    attachments, but for what is added. *)
Theorem C38_created : forall ap name base (big : bool) offset ps an n,
  mkv_ok ps -> (exists k, has_track k (all_items ps)) -> (forall w d, In (Leaf file_name w d) (all_items ps) -> exists t, utf8_enc t = Some d) ->
  (forall k, has_track k (all_items ps) -> offset k < 2 ^ 64 /\ lenN (data_of k (all_items ps)) < (if big then 2 ^ 64 else 2 ^ 32)) ->
  utf8_enc ap = Some an -> lenN an < 2 ^ 16 -> after_slash name base -> utf8_enc base = Some n -> lenN n < 2 ^ 16 -> lenN (file_of ps) < 2 ^ 64 ->
  exists srs ns, mkv_srs ap name big offset (file_of ps) = Ok srs /\ NoDup ns /\ (forall k, In k ns <-> has_track k (all_items ps)) /\
  lenN srs + fold_right (fun k s => lenN (data_of k (all_items ps)) + s) 0 ns + lenN (concat (map snd (files_of (all_items ps)))) <=
  lenN (file_of ps) + 40 + lenN an + lenN n + 16415 * lenN ns.
Proof. exact mkv_creates. Qed.
Print Assumptions C38_created.
(** Attachments behind the clusters are not found, here with the sample itself as the movie. *)
Theorem C38_refuted : exists ps srs, mkv_ok ps /\ mkv_srs (str "pyReSample 0.7") (str "/tmp/a.mkv") false (fun _ => 0) (file_of ps) = Ok srs /\
  mkv_restore false srs (file_of ps) = Err KeyError.
Proof. exact behind_witness. Qed.
Print Assumptions C38_refuted.
(** Two attachments of the same name cannot be extracted. *)
Theorem C38_twice_refuted : exists ps srs, Forall part_ok ps /\ before [tracks; attachments] [cluster] ps /\ numbered (all_items ps) /\ ~ In None (map fst (files_of (all_items ps))) /\
  mkv_srs (str "pyReSample 0.7") (str "/tmp/a.mkv") false (fun _ => 0) (file_of ps) = Ok srs /\ mkv_restore false srs (file_of ps) = Err AssertionError.
Proof. exact twice_witness. Qed.
Print Assumptions C38_twice_refuted.
(** The number of a track is read like the size of an element: a number above 127 in one byte is another one. *)
Theorem C38_number_refuted : exists ps srs, before [tracks; attachments] [cluster] ps /\ numbered (all_items ps) /\ files_ok (all_items ps) /\ (forall b, In (Blk b) (all_items ps) -> blk_ok b /\ listed (k_no b) (all_items ps)) /\
  mkv_srs (str "pyReSample 0.7") (str "/tmp/a.mkv") false (fun _ => 0) (file_of ps) = Ok srs /\ mkv_restore false srs (file_of ps) = Err KeyError.
Proof. exact number_witness. Qed.
Print Assumptions C38_number_refuted.
(** Frames that begin like the sample hide the begin of the sample. *)
Theorem C38_hidden_refuted : exists ps srs ms at_, mkv_ok ps /\ mkv_srs (str "pyReSample 0.7") (str "/tmp/a.mkv") false (fun _ => 0) (file_of ps) = Ok srs /\
  movie_ok (file_of ms) ms /\ in_movie held (all_items ps) (all_items ms) at_ /\ alike (all_items ps) (all_items ms) /\ mkv_restore false srs (file_of ms) = Ok (Abort 3).
Proof. exact hidden_witness. Qed.
Print Assumptions C38_hidden_refuted.
(** If different headers are removed from the frames of both files, the sample is not found. *)
Theorem C38_strips_refuted : exists ps srs ms at_, mkv_ok ps /\ mkv_srs (str "pyReSample 0.7") (str "/tmp/a.mkv") false (fun _ => 0) (file_of ps) = Ok srs /\
  movie_ok (file_of ms) ms /\ in_movie first_held (all_items ps) (all_items ms) at_ /\ mkv_restore false srs (file_of ms) = Ok (Abort 3).
Proof. exact strips_witness. Qed.
Print Assumptions C38_strips_refuted.
(** Without a segment nothing says what the sample was; the SRS is created all the same. *)
Theorem C38_segment_refuted : exists ps srs, Forall part_ok ps /\ movie_ok (file_of ps) ps /\ mkv_srs (str "pyReSample 0.7") (str "/tmp/a.mkv") false (fun _ => 0) (file_of ps) = Ok srs /\
  mkv_restore false srs (file_of ps) = Err AttributeError.
Proof. exact none_witness. Qed.
Print Assumptions C38_segment_refuted.
(** two tracks, header removal in one, lacing in the other, an attachment *)
Example C38_example : mkv_ok e_ps /\ numbers (all_items e_ps) = [1; 2; 1; 2; 1] /\ data_of 1 (all_items e_ps) = bstr "abcdefg" /\ header_of 1 (all_items e_ps) = bstr "hd" /\
  (forall w d, In (Leaf file_name w d) (all_items e_ps) -> exists t, utf8_enc t = Some d) /\
  exists srs, mkv_srs (str "pyReSample 0.7") (str "/tmp/a.mkv") false (fun _ => 0) (file_of e_ps) = Ok srs /\ lenN srs = lenN (file_of e_ps) + 97 - 14.
Proof. split; [exact e_ok|]. destruct e_streams as (A & B & _ & C & _). split; [exact A|]. split; [exact B|]. split; [exact C|]. split; [exact e_utf8|exact e_created]. Qed.
Example C38_rebuilt_example :
  let ts := [(2, mkT (m_td (new_mtrack 2)) 0 0 [] (Some (bstr "XYZ..")) []); (7, new_mtrack 7); (1, mkT (m_td (new_mtrack 1)) 0 0 [] (Some (bstr "abcdefg")) [])] : mtracks in
  let atts := [(bstr "none", None); (bstr "a.ttf", Some (bstr "font"))] in
  NoDup (map fst ts) /\ NoDup (map fst atts) /\ (forall b, In (Blk b) (all_items e_ps) -> exists t d, In (k_no b, t) ts /\ m_file t = Some d /\ starts (data_of (k_no b) (all_items e_ps)) d) /\
  forall nm d, In (Some nm, d) (files_of (all_items e_ps)) -> In (nm, Some d) atts.
Proof. exact e_tracks. Qed.
(** the movie: another block first, nothing removed from the frames, other frames *)
Example C38_movie_example : movie_ok e_main e_mps /\ in_movie first_held (all_items e_ps) (all_items e_mps) e_at /\ in_movie held (all_items e_ps) (all_items e_mps) e_at /\ alike (all_items e_ps) (all_items e_mps).
Proof. split; [exact e_movie|exact e_in]. Qed.
(** the offsets that are stored, with option -c *)
Example C38_stored_example : (forall n, has_track n (all_items e_ps) -> e_at n <> 0 /\ lenN (data_of n (all_items e_ps)) <= 1000000) /\
  exists srs, mkv_srs (str "pyReSample 0.7") (str "/tmp/a.mkv") false e_at (file_of e_ps) = Ok srs.
Proof. exact e_stored. Qed.

(** ** C45 for MKV files and their SRS files *)
(** Every reading of a file ends, whatever its bytes are. *)
Theorem C45_mkv_profile : forall name f, mkv_profile name f <> Err OutOfFuel.
Proof. exact profile_ends. Qed.
Print Assumptions C45_mkv_profile.
Theorem C45_mkv_srs : forall ap name big offset f, mkv_srs ap name big offset f <> Err OutOfFuel.
Proof. exact srs_ends. Qed.
Print Assumptions C45_mkv_srs.
Theorem C45_mkv_load : forall f, mkv_load_srs f <> Err OutOfFuel.
Proof. exact load_ends. Qed.
Print Assumptions C45_mkv_load.
Theorem C45_mkv_find : forall cut ts main, mkv_find cut ts main <> Err OutOfFuel.
Proof. exact find_ends. Qed.
Print Assumptions C45_mkv_find.
Theorem C45_mkv_extract : forall ts main, mkv_extract ts main <> Err OutOfFuel.
Proof. exact extract_ends. Qed.
Print Assumptions C45_mkv_extract.
Theorem C45_mkv_rebuild : forall flags ts atts srs, mkv_rebuild flags ts atts srs <> Err OutOfFuel.
Proof. exact rebuild_ends. Qed.
Print Assumptions C45_mkv_rebuild.
Theorem C45_mkv_restore : forall no_stored srs main, mkv_restore no_stored srs main <> Err OutOfFuel.
Proof. exact restore_ends. Qed.
Print Assumptions C45_mkv_restore.
(** elements without contents, sizes beyond the end, an id that is none *)
Example C45_mkv_example : mkv_load_srs (map n2b [0x80; 0x80; 0x80; 0x80; 0x81]) = Ok (None, [], []) /\ mkv_load_srs (map n2b [0x80; 0xFF; 0]) = Ok (None, [], []) /\
  mkv_profile [] (map n2b [0x80; 0x85; 0]) = Err ValueError /\ mkv_profile [] (map n2b [0; 0; 0; 0; 0]) = Err ValueError.
Proof. repeat split; vm_compute; reflexivity. Qed.
