(** Props_Mp4: MP4 files: tables (C39), rebuilding (C56), reading (C45). *)
From Verif Require Import Base Crc SrsRec SrsRecSpec Srs Mp4 StrmSpec Mp3Spec Mp4Spec Mp4Main Mp4Ex Mp4Tables.

(** ** C39 *)
(** The samples in chunk [c], for every table with increasing first chunks, also behind the end of the table. *)
Theorem C39_table : forall l c n, increasing l -> (forall f m, In (f, m) l -> 1 <= f) -> 1 <= c -> in_table l c n ->
  samples_in (stsc (map (fun x => (fst x, Some (snd x))) l)) (N.to_nat (c - 1)) = Ok n.
Proof. exact table_right. Qed.
Print Assumptions C39_table.
(** A chunk before the first entry is an error. *)
Theorem C39_before : forall l c, increasing l -> l <> [] -> (forall f m, In (f, m) l -> c < f) -> 1 <= c ->
  samples_in (stsc (map (fun x => (fst x, Some (snd x))) l)) (N.to_nat (c - 1)) = Err TypeError.
Proof. exact table_before. Qed.
Print Assumptions C39_before.
(** Reading from the first chunk on gives the samples one behind the other, wherever the chunks are. *)
Theorem C39_read : forall f t o ds rest sig len, counted t -> inside f t -> v_chunks t = (o, ds) :: rest ->
  exists c l, mp4_chunks (mkM (map fst (v_chunks t)) (stsc (map (fun x => (fst x, Some (snd x))) (v_table t))) (map lenN (v_samples t)) sig len) = Ok (c :: l) /\ fst c = o /\
  forall amount, ts_read f o 0 c l amount = takeN amount (v_data t).
Proof. exact read_track. Qed.
Print Assumptions C39_read.
(** From the bytes of a whole file, and from every sample on.  Not with boxes stz2; see below. *)
Theorem C39_partial : forall f ms m o post t, movie_ok f ms -> In m ms -> from_offset m o post -> t_offset t = Z.of_N o ->
  mp4_extract [(v_id m, t)] f = Ok [(v_id m, mkTrack (t_td t) (t_offset t) (t_match t) (Some (takeN (td_length (t_td t)) (concat post))) (t_print t))].
Proof. exact extract_track. Qed.
Print Assumptions C39_partial.
(** The sizes in a box stz2, here of 8 bits each, are not read. *)
Theorem C39_refuted : exists sizes m, Forall (fun n => n < 256) sizes /\
  add_table (mkM [] [] [] [] 0) (mkAtom (bstr "stz2") 23 (be 4 23 ++ bstr "stz2") 0) (repN 4 x00 ++ repN 3 x00 ++ be 1 8 ++ be 4 (lenN sizes) ++ numbers 1 sizes) = Some (Ok m) /\ m_sizes m <> sizes.
Proof. exact stz2_witness. Qed.
Print Assumptions C39_refuted.
Example C39_example : increasing [(1, 3); (4, 1); (5, 2)] /\ (forall f m, In (f, m) [(1, 3); (4, 1); (5, 2)] -> 1 <= f) /\ in_table [(1, 3); (4, 1); (5, 2)] 3 3 /\ in_table [(1, 3); (4, 1); (5, 2)] 9 2 /\
  stsc (map (fun x => (fst x, Some (snd x))) [(1, 3); (4, 1); (5, 2)]) = [(1, Some 3); (2, Some 3); (3, Some 3); (4, Some 1); (5, Some 2)].
Proof. exact e_table. Qed.
Example C39_before_example : samples_in (stsc (map (fun x => (fst x, Some (snd x))) [(3, 2)])) 1 = Err TypeError.
Proof. vm_compute. reflexivity. Qed.
Example C39_movie_example : movie_ok e_main e_ms /\ Forall counted e_ts.
Proof. split; [exact e_movie|exact e_counted]. Qed.

(** ** C56 *)
(** The tracks are searched for if an offset is not known or the stored ones are not to be used.  One box mdat, and
    numbers of tracks in 16 bits; see below. *)
Theorem C56_partial : forall app name big offset no_stored a h p b ts srs main ms,
  mp4_ok a h p b ts -> Forall (fun t => v_id t < 2 ^ 16) ts -> mp4_srs app name big offset (mp4_file a h p b) = Ok srs -> movie_ok main ms ->
  (in_movie first_held ts ms /\ (no_stored = true \/ exists t, In t ts /\ offset (v_id t) = 0)) \/
  (no_stored = false /\ in_movie (fun t m => held_at (offset (v_id t)) t m) ts ms) ->
  mp4_restore no_stored srs main = Ok (Rebuilt (mp4_file a h p b)).
Proof. exact mp4_exact. Qed.
Print Assumptions C56_partial.
(** What is said to be rebuilt from any main file has the CRC of the sample, its metadata and as much data. *)
Theorem C56_sound : forall app name big offset no_stored a h p b ts srs main out,
  mp4_ok a h p b ts -> Forall (fun t => v_id t < 2 ^ 16) ts -> mp4_srs app name big offset (mp4_file a h p b) = Ok srs ->
  mp4_restore no_stored srs main = Ok (Rebuilt out) ->
  crc32 out = crc32 (mp4_file a h p b) /\ exists data, out = mp4_file a h data b /\ lenN data = lenN p.
Proof. exact mp4_sound. Qed.
Print Assumptions C56_sound.
(** An SRS can be created of every such sample, and holds no more of its tracks than their first 256 bytes. *)
Theorem C56_created : forall app name base (big : bool) offset a h p b ts an n,
  mp4_ok a h p b ts -> ts <> [] -> Forall (fun t => v_id t < 2 ^ 16 /\ offset (v_id t) < 2 ^ 64 /\ lenN (v_data t) < (if big then 2 ^ 64 else 2 ^ 32)) ts ->
  utf8_enc app = Some an -> lenN an < 2 ^ 16 -> after_slash name base -> utf8_enc base = Some n -> lenN n < 2 ^ 16 -> lenN (mp4_file a h p b) < 2 ^ 64 ->
  exists srs, mp4_srs app name big offset (mp4_file a h p b) = Ok srs /\
  lenN srs = lenN (mp4_file a h [] b) + lenN (concat (map (fun t => takeN 256 (v_data t)) ts)) + 26 + lenN an + lenN n + lenN ts * (if big then 30 else 26).
Proof. exact mp4_creates. Qed.
Print Assumptions C56_created.
(** With two boxes mdat all the data is written into the first. *)
Theorem C56_refuted : exists f ms srs out, movie_ok f ms /\ mp4_srs (str "pyReSample 0.7") (str "/tmp/a.mp4") false (fun _ => 0) f = Ok srs /\ mp4_restore false srs f = Ok (Mismatch out) /\ out <> f.
Proof. exact two_mdat_witness. Qed.
Print Assumptions C56_refuted.
(** The number of a track that needs more than 16 bits is stored in 32, without the flag that says so. *)
Theorem C56_number_refuted : exists a h p b ts srs, mp4_ok a h p b ts /\ mp4_srs (str "pyReSample 0.7") (str "/tmp/a.mp4") false (fun _ => 0) (mp4_file a h p b) = Ok srs /\ mp4_restore false srs (mp4_file a h p b) = Err KeyError.
Proof. exact big_id_witness. Qed.
Print Assumptions C56_number_refuted.
Example C56_example : mp4_ok ftyp e_h e_pay e_b e_ts /\ Forall (fun t => v_id t < 2 ^ 16) e_ts /\
  exists srs, mp4_srs e_app e_name false (fun _ => 0) (mp4_file ftyp e_h e_pay e_b) = Ok srs /\ lenN srs = lenN (mp4_file ftyp e_h [] e_b) + 110.
Proof. split; [exact e_ok|]. split; [exact e_ids|exact e_created]. Qed.
Example C56_movie_example : movie_ok e_main e_ms /\ (in_movie first_held e_ts e_ms /\ (false = true \/ exists t, In t e_ts /\ 0 = 0)) /\
  in_movie (fun t m => held_at (if v_id t =? 1 then 22 else 30) t m) e_ts e_ms.
Proof. exact e_found. Qed.

(** ** C45 for MP4 files and their SRS files *)
(** Reading ends if no size in 64 bits is 0, whatever is done with the boxes. *)
Theorem C45_mp4_partial : forall (S : Type) check (act : S -> atom -> result (S * move)) f, sized f -> (forall s a, act s a <> Err OutOfFuel) ->
  forall s, mov_read check act f s <> Err OutOfFuel.
Proof. exact @sized_ends. Qed.
Print Assumptions C45_mp4_partial.
(** Profiling a sample ends for every file, and so does reading the tables of an SRS. *)
Theorem C45_mp4_profile : forall f, mp4_profile true f <> Err OutOfFuel.
Proof. exact profile_ends. Qed.
Print Assumptions C45_mp4_profile.
Theorem C45_mp4_tables : forall ids f, mp4_profile_srs ids f <> Err OutOfFuel.
Proof. exact profile_srs_ends. Qed.
Print Assumptions C45_mp4_tables.
(** A box that says its size is 0, in 64 bits: an SRS that is read forever. *)
Theorem C45_mp4_refuted : exists f, forall fuel s, mov_loop fuel false (load_step f) f 0 s = Err OutOfFuel.
Proof. exact (ex_intro _ bad_box load_forever). Qed.
Print Assumptions C45_mp4_refuted.
Example C45_mp4_example : sized (mp4_file ftyp e_h e_pay e_b) /\ ~ sized bad_box.
Proof. split; [exact e_sized|]. intros H. now apply (H 0). Qed.
