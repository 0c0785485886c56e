(** Props_Avi: AVI files: rebuilding (C37), reading (C45). *)
From Verif Require Import Base Crc SrsRec SrsRecSpec Srs StrmSpec Mp3Spec Avi AviSpec AviMain AviMore AviEnd AviEx.

(** ** C37 *)
(** From the data of its streams, extracted into the files of tracks, the sample is rebuilt, whatever follows in the files
    and whatever other tracks there are. *)
Theorem C37_rebuilt : forall ap name big offset its srs (ts : tracks), avi_ok its -> avi_srs ap name big offset (file_of its) = Ok srs ->
  NoDup (map fst ts) -> Forall (fun t => t_file (snd t) <> None) ts ->
  (forall n, has_stream n its -> exists t d, In (n, t) ts /\ t_file t = Some d /\ starts (data_of n its) d) ->
  avi_rebuild ts srs = Ok (file_of its, file_of its).
Proof. exact avi_back. Qed.
Print Assumptions C37_rebuilt.
(** From the main file.  The streams are searched for if an offset is not known or the stored ones are not to be used.
    The first data of the sample is at the begin of a chunk, the streams of the movie go on and the streams of the sample
    have data; see below. *)
Theorem C37_partial : forall ap name big offset no_stored its srs main ms,
  avi_ok its -> avi_srs ap name big offset (file_of its) = Ok srs -> movie_ok main ms ->
  (exists at_ o, in_movie first_held its ms at_ o /\ goes_on ms o /\ (no_stored = true \/ exists n, has_stream n its /\ offset n = 0)) \/
  (no_stored = false /\ exists o, in_movie held its ms offset o) ->
  avi_restore no_stored srs main = Ok (Rebuilt (file_of its)).
Proof. exact avi_exact. Qed.
Print Assumptions C37_partial.
(** What is said to be rebuilt from any main file has the CRC of the sample, its lists and chunks, and as much data in each. *)
Theorem C37_sound : forall ap name big offset no_stored its srs main out, avi_ok its -> avi_srs ap name big offset (file_of its) = Ok srs ->
  avi_restore no_stored srs main = Ok (Rebuilt out) -> crc32 out = crc32 (file_of its) /\ exists its', out = file_of its' /\ Forall2 same_shape its its'.
Proof. exact avi_sound. Qed.
Print Assumptions C37_sound.
(** An SRS can be created of every such sample, and is smaller by the data of the streams, but for what is added in each
    list movi. *)
Theorem C37_created : forall ap name base (big : bool) offset its an n, avi_ok its -> (exists k, has_stream k its) ->
  (forall k, has_stream k its -> offset k < 2 ^ 64 /\ lenN (data_of k its) < (if big then 2 ^ 64 else 2 ^ 32)) ->
  utf8_enc ap = Some an -> lenN an < 2 ^ 16 -> after_slash name base -> utf8_enc base = Some n -> lenN n < 2 ^ 16 -> lenN (file_of its) < 2 ^ 64 ->
  exists srs ns, avi_srs ap name big offset (file_of its) = Ok srs /\ NoDup ns /\ (forall k, In k ns <-> has_stream k its) /\
  lenN srs + fold_right (fun k s => lenN (data_of k its) + s) 0 ns <=
  lenN (file_of its) + lenN (filter (fun i => match i with Lst ty _ name => beqb ty (bstr "LIST") && beqb name (bstr "movi") | _ => false end) its) * (27 + lenN an + lenN n + 287 * lenN ns).
Proof. exact avi_creates. Qed.
Print Assumptions C37_created.
(** If the first data of the sample is inside a chunk of the movie, what is 8 bytes before it can be taken for the header
    of a chunk. *)
Theorem C37_refuted : exists its srs ms main at_ o, avi_ok its /\ avi_srs (str "pyReSample 0.7") (str "/tmp/a.avi") false (fun _ => 0) (file_of its) = Ok srs /\ movie_ok main ms /\
  (forall n, has_stream n its -> o <= at_ n /\ exists d1, first_held n (data_of n its) ms (at_ n) d1) /\ (exists n, has_stream n its /\ at_ n = o) /\ goes_on ms o /\
  forall out, avi_restore false srs main <> Ok (Rebuilt out).
Proof. exact inside_witness. Qed.
Print Assumptions C37_refuted.
(** A stream of the movie that ends before the sample begins is a track without a file. *)
Theorem C37_ended_refuted : exists its srs ms main at_ o, avi_ok its /\ avi_srs (str "pyReSample 0.7") (str "/tmp/a.avi") false (fun _ => 0) (file_of its) = Ok srs /\ movie_ok main ms /\
  in_movie first_held its ms at_ o /\ avi_restore false srs main = Err AttributeError.
Proof. exact ended_witness. Qed.
Print Assumptions C37_ended_refuted.
(** So is a stream of the sample without data, here with the sample itself as the movie. *)
Theorem C37_empty_refuted : exists its srs, Forall item_ok its /\ lists_fit its /\ (exists a size b, its = a ++ Lst (bstr "LIST") size (bstr "movi") :: b /\ forall n, ~ has_stream n a) /\
  avi_srs (str "pyReSample 0.7") (str "/tmp/a.avi") false (fun _ => 0) (file_of its) = Ok srs /\ movie_ok (file_of its) its /\ avi_restore false srs (file_of its) = Err AttributeError.
Proof. exact empty_witness. Qed.
Print Assumptions C37_empty_refuted.
(** Without a list movi nothing says what the sample was; the SRS is created all the same. *)
Theorem C37_no_movi_refuted : exists its srs, Forall item_ok its /\ lists_fit its /\ (forall n, has_stream n its -> data_of n its <> []) /\
  avi_srs (str "pyReSample 0.7") (str "/tmp/a.avi") false (fun _ => 0) (file_of its) = Ok srs /\ avi_restore false srs (file_of its) = Err UnboundLocal.
Proof. exact no_movi_witness. Qed.
Print Assumptions C37_no_movi_refuted.
Example C37_example : avi_ok e_its /\ (exists k, has_stream k e_its) /\
  exists srs, avi_srs (str "pyReSample 0.7") (str "/tmp/a.avi") false (fun _ => 0) (file_of e_its) = Ok srs /\ lenN srs = lenN (file_of e_its) + 110 - 10.
Proof. split; [exact e_ok|]. split; [exists 0; apply e_has; now left|exact e_created]. Qed.
Example C37_rebuilt_example :
  let ts := [(1, mkTrack (t_td (new_track 1)) 0 0 (Some (bstr "XYZ..")) None); (0, mkTrack (t_td (new_track 0)) 0 0 (Some (bstr "abcdefg")) None)] : tracks in
  NoDup (map fst ts) /\ Forall (fun t => t_file (snd t) <> None) ts /\
  forall n, has_stream n e_its -> exists t d, In (n, t) ts /\ t_file t = Some d /\ starts (data_of n e_its) d.
Proof. exact e_tracks. Qed.
Example C37_movie_example : movie_ok e_main e_ms /\ in_movie first_held e_its e_ms e_at (lenN (file_of e_pre) + 8) /\ goes_on e_ms (lenN (file_of e_pre) + 8) /\
  in_movie held e_its e_ms e_at (lenN (file_of e_pre) + 8).
Proof. split; [exact e_movie|]. split; [exact e_in|]. split; [exact e_goes|exact e_held]. Qed.
(** the offsets that are stored, with option -c *)
Example C37_stored_example : exists srs, avi_srs (str "pyReSample 0.7") (str "/tmp/a.avi") false e_at (file_of e_its) = Ok srs.
Proof. eexists. vm_compute. reflexivity. Qed.

(** ** C45 for AVI files and their SRS files *)
(** Every reading of a file ends, whatever its bytes are. *)
Theorem C45_avi_profile : forall name f, avi_profile name f <> Err OutOfFuel.
Proof. exact profile_ends. Qed.
Print Assumptions C45_avi_profile.
Theorem C45_avi_srs : forall ap name big offset f, avi_srs ap name big offset f <> Err OutOfFuel.
Proof. exact srs_ends. Qed.
Print Assumptions C45_avi_srs.
Theorem C45_avi_load : forall f, avi_load_srs f <> Err OutOfFuel.
Proof. exact load_ends. Qed.
Print Assumptions C45_avi_load.
Theorem C45_avi_find : forall ts main, avi_find ts main <> Err OutOfFuel.
Proof. exact find_ends. Qed.
Print Assumptions C45_avi_find.
Theorem C45_avi_extract : forall ts main, avi_extract ts main <> Err OutOfFuel.
Proof. exact extract_ends. Qed.
Print Assumptions C45_avi_extract.
Theorem C45_avi_rebuild : forall ts srs, avi_rebuild ts srs <> Err OutOfFuel.
Proof. exact rebuild_ends. Qed.
Print Assumptions C45_avi_rebuild.
Theorem C45_avi_restore : forall no_stored srs main, avi_restore no_stored srs main <> Err OutOfFuel.
Proof. exact restore_ends. Qed.
Print Assumptions C45_avi_restore.
(** a list with a size of 0, one with a size beyond the end, and a name that is none *)
Example C45_avi_example : avi_load_srs (bstr "LIST" ++ le 4 0 ++ bstr "hdrlLIST" ++ le 4 (2 ^ 32 - 1) ++ bstr "moviavih" ++ le 4 (2 ^ 32 - 1)) = Err StructError /\
  avi_profile [] (bstr "RIFF" ++ le 4 0 ++ bstr "AVI " ++ [x00] ++ bstr "abc" ++ le 4 0) = Err ValueError.
Proof. split; vm_compute; reflexivity. Qed.
