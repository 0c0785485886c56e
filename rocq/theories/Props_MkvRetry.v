(** Props_MkvRetry: rebuilding an MKV sample with the other places of its tracks (C61). *)
From Verif Require Import Base Crc SrsRec SrsRecSpec Srs StrmSpec Mp3Spec Mkv MkvSpec MkvRetry MkvRetrySpec MkvRetryFacts MkvTried MkvFits MkvRetryEx.

(** If the first places are right, nothing else is tried: then it is what C38 is about. *)
Theorem C61_first : forall no_stored srs main r, mkv_restore no_stored srs main = r -> r <> Err NotModelled -> mkv_restore_all no_stored srs main = r.
Proof. exact restore_first. Qed.
Print Assumptions C61_first.
(** It ends, whatever is in the files. *)
Theorem C61_ends : forall no_stored srs main, mkv_restore_all no_stored srs main <> Err OutOfFuel.
Proof. exact restore_all_ends. Qed.
Print Assumptions C61_ends.
(** What is said to be rebuilt has the CRC of the sample. *)
Theorem C61_sound : forall ap name big offset no_stored ps srs main out, mkv_ok ps -> mkv_srs ap name big offset (file_of ps) = Ok srs -> mkv_restore_all no_stored srs main = Ok (Rebuilt out) -> crc32 out = crc32 (file_of ps).
Proof. exact restore_all_sound. Qed.
Print Assumptions C61_sound.
(** The other places are places of frames of the track, behind the place where it was found. *)
Theorem C61_others : forall ap name big offset ps srs main ms fd ts0 cut0 cut ts c, mkv_ok ps -> mkv_srs ap name big offset (file_of ps) = Ok srs -> movie_ok main ms -> mkv_load_srs srs = Ok (fd, ts0, cut0) ->
  mkv_find_all (map (fun k => (k, [])) cut) ts0 main = Ok (ts, c) ->
  forall k l o, In (k, l) c -> In o l -> NoDup cut -> (exists x, In (o, x) (frames_at k 0 (all_items ms))) /\ exists t, In (k, t) ts /\ (data_of k (all_items ps) <> [] -> 0 < m_offset t <= o).
Proof. exact others_are. Qed.
Print Assumptions C61_others.
(** At an other place of a track with data is a frame that begins like the data of the sample, as far as it is long enough,
    with the header that is removed in the movie put before it. *)
Theorem C61_fit : forall ap name big offset ps srs main ms fd ts0 cut0 cut ts c, mkv_ok ps -> mkv_srs ap name big offset (file_of ps) = Ok srs -> movie_ok main ms -> mkv_load_srs srs = Ok (fd, ts0, cut0) ->
  mkv_find_all (map (fun k => (k, [])) cut) ts0 main = Ok (ts, c) ->
  forall k l o, In (k, l) c -> In o l -> NoDup cut -> data_of k (all_items ps) <> [] -> exists t x, In (k, t) ts /\ 0 < m_offset t <= o /\ In (o, x) (frames_at k 0 (all_items ms)) /\
  starts (td_signature (m_td t)) (data_of k (all_items ps)) /\ starts (takeN (lenN (td_signature (m_td t))) (as_sample (header_of k (all_items ps)) (header_of k (all_items ms)) x)) (td_signature (m_td t)).
Proof. exact others_fit_are. Qed.
Print Assumptions C61_fit.
(** If for each track the right place is one of those that are tried, the sample is rebuilt.  [cut]: any tracks that are
    held to have too little signature. *)
Theorem C61_partial : forall ap name big offset no_stored ps srs main ms at_ fd ts0 cut0 cut ts c, mkv_ok ps -> mkv_srs ap name big offset (file_of ps) = Ok srs -> movie_ok main ms -> in_movie held (all_items ps) (all_items ms) at_ ->
  mkv_load_srs srs = Ok (fd, ts0, cut0) -> cut <> [] -> NoDup cut -> (forall k, In k cut -> data_of k (all_items ps) <> []) -> mkv_find_all (map (fun k => (k, [])) cut) ts0 main = Ok (ts, c) ->
  (forall n, data_of n (all_items ps) <> [] -> tried ts c n (at_ n)) ->
  exists out, mkv_restore_from no_stored fd ts0 cut srs main = Ok (Rebuilt out) /\ crc32 out = crc32 (file_of ps).
Proof. exact restore_retry. Qed.
Print Assumptions C61_partial.
(** the same with the tracks of more than 1000000 bytes that the program takes *)
Theorem C61_taken_partial : forall ap name big offset no_stored ps srs main ms at_ fd ts0 cut ts c, mkv_ok ps -> mkv_srs ap name big offset (file_of ps) = Ok srs -> movie_ok main ms -> in_movie held (all_items ps) (all_items ms) at_ ->
  mkv_load_srs srs = Ok (fd, ts0, cut) -> cut <> [] -> mkv_find_all (map (fun k => (k, [])) cut) ts0 main = Ok (ts, c) ->
  (forall n, data_of n (all_items ps) <> [] -> tried ts c n (at_ n)) ->
  exists out, mkv_restore_all no_stored srs main = Ok (Rebuilt out) /\ crc32 out = crc32 (file_of ps).
Proof. exact restore_all_retry. Qed.
Print Assumptions C61_taken_partial.
(** If every track has other places, nothing is tried, though one of them is right: min() of nothing. *)
Theorem C61_refuted : exists ps ms at_ srs fd ts0 cut0 ts l, mkv_ok ps /\ mkv_srs (str "pyReSample 0.7") (str "/tmp/a.mkv") false (fun _ => 0) (file_of ps) = Ok srs /\ movie_ok (file_of ms) ms /\ in_movie held (all_items ps) (all_items ms) at_ /\
  data_of 1 (all_items ps) <> [] /\ mkv_load_srs srs = Ok (fd, ts0, cut0) /\ mkv_find_all [(1, [])] ts0 (file_of ms) = Ok (ts, [(1, l)]) /\ In (at_ 1) l /\ mkv_restore_from false fd ts0 [1] srs (file_of ms) = Err ValueError.
Proof. exact only_witness. Qed.
Print Assumptions C61_refuted.
(** The place where a track was found first is not tried with the other places of another track. *)
Theorem C61_once_refuted : exists ps ms at_ srs fd ts0 cut0 ts l1 l2 t1 out, mkv_ok ps /\ mkv_srs (str "pyReSample 0.7") (str "/tmp/a.mkv") false (fun _ => 0) (file_of ps) = Ok srs /\ movie_ok (file_of ms) ms /\ in_movie held (all_items ps) (all_items ms) at_ /\
  mkv_load_srs srs = Ok (fd, ts0, cut0) /\ mkv_find_all [(1, []); (2, [])] ts0 (file_of ms) = Ok (ts, [(1, l1); (2, l2)]) /\ In (1, t1) ts /\ m_offset t1 = at_ 1 /\ In (at_ 2) l2 /\ (exists o, settled ts [(1, l1); (2, l2)] o) /\
  mkv_restore_from false fd ts0 [1; 2] srs (file_of ms) = Ok (Mismatch out).
Proof. exact once_witness. Qed.
Print Assumptions C61_once_refuted.
(** a movie with the signature of the first track twice, the second time with the data of the sample *)
Example C61_example : mkv_ok t_ps /\ mkv_srs t_ap t_name false (fun _ => 0) (file_of t_ps) = Ok (t_srs t_ps) /\ movie_ok (file_of t_ms) t_ms /\ in_movie held (all_items t_ps) (all_items t_ms) (t_at t_k t_ms) /\
  mkv_load_srs (t_srs t_ps) = Ok (t_fd t_ps, t_ts t_ps, []) /\ NoDup [1] /\ (forall k, In k [1] -> data_of k (all_items t_ps) <> []) /\ mkv_find_all (map (fun k => (k, [])) [1]) (t_ts t_ps) (file_of t_ms) = Ok (t_find [1] t_ps t_ms) /\
  (forall n, data_of n (all_items t_ps) <> [] -> tried (fst (t_find [1] t_ps t_ms)) (snd (t_find [1] t_ps t_ms)) n (t_at t_k t_ms n)) /\
  map (fun t => (fst t, m_offset (snd t))) (fst (t_find [1] t_ps t_ms)) = [(1, 66); (2, 618)] /\ snd (t_find [1] t_ps t_ms) = [(1, [338])] /\ t_at t_k t_ms 1 = 338 /\
  mkv_restore_from false (t_fd t_ps) (t_ts t_ps) [1] (t_srs t_ps) (file_of t_ms) = Ok (Rebuilt (file_of t_ps)).
Proof.
  split; [exact t_ok|]. split; [exact t_created|]. split; [exact t_movie|]. split; [exact t_in|]. split; [exact t_loads|]. split; [exact t_nodup|]. split; [exact t_data|]. split; [exact t_found|]. split; [exact t_tried|].
  destruct t_places as (A & B & C & _). split; [exact A|]. split; [exact B|]. split; [exact C|exact t_back].
Qed.
(** which of the places 3, 8, 15, 20, 40 and 60 are tried if the other tracks are at 10 to 30 *)
Example C61_worth_example : olist 10 30 [3; 8; 15; 20; 40; 60] 3 = [8; 40; 20; 15] /\ worth 10 30 [3; 8; 15; 20; 40; 60] 8 /\ ~ worth 10 30 [3; 8; 15; 20; 40; 60] 3 /\ olist 10 30 [] 3 = [3].
Proof. exact worth_example. Qed.
