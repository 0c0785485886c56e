(** MovieEx: examples of movies inside RAR volumes. *)
From Verif Require Mp3 Mp3Facts Flac FlacSpec FlacFacts Mkv MkvSpec MkvEx Wmv WmvSpec WmvEx Mp4 Mp4Ex.
From Verif Require Import Base BaseFacts Path VolName VolSpec VolFacts RarSpec SetSpec Srr Stream StreamSpec StreamFacts StreamThms Samples SrsRec Srs StrmSrs Mp3Spec Avi AviSpec AviEx Prog ProgSpec ProgFacts MovieType MovieSpec MovieFacts.

Definition more_disk (a b : volume) (q : text) (main : bytes) : fs := set_of a b ++ [(q, main)].
Lemma more_on a b q main : volume_ok a -> volume_ok b -> Forall (readable false) (v_items a) -> Forall (readable false) (v_items b) -> teqb q (str "set.r01") = false -> on_disk (more_disk a b q main) set_style 0 false [a; b].
Proof.
  intros Ha Hb Ra Rb Hq. destruct (set_on a b Ha Hb Ra Rb) as (H1 & H2 & H3 & H4 & H5). split; [exact H1|]. split; [exact H2|]. split; [exact H3|]. split.
  - intros [|[|i]] v H; cbn in H; [| |now destruct i]; injection H as <-; reflexivity.
  - unfold more_disk, set_of. change (vol_name set_style (0 + N.of_nat (length [a; b]))) with (str "set.r01"). cbn in Hq. cbn. try rewrite Hq. reflexivity.
Qed.
(** two volumes: subtitles and the start of a movie, the rest of the movie *)
Definition two_a (name : string) (size : N) (d : bytes) : volume :=
  mkVolume [(AHEAD, []); (HFile (FHEAD 0 "a.srt" 3 0x22) 3, bstr "sub"); (HFile (FHEAD 2 name size 0x11) (lenN d), d); (ENDHEAD, [])] [].
Definition two_b (name : string) (size : N) (d : bytes) : volume :=
  mkVolume [(AHEAD, []); (HFile (FHEAD 1 name size 0x11) (lenN d), d); (ENDHEAD, [])] [].
Definition in_two (name : string) (k : N) (q : text) (main : bytes) : fs :=
  more_disk (two_a name (lenN main) (takeN k main)) (two_b name (lenN main) (dropN k main)) q main.
Lemma two_in name k q main : volume_ok (two_a name (lenN main) (takeN k main)) -> volume_ok (two_b name (lenN main) (dropN k main)) -> teqb q (str "set.r01") = false -> media_name (str name) -> str name <> str "a.srt" ->
  map (fun c => if c =? 47 then 92 else c) (str name) = str name -> str name <> [] -> takeN k main <> [] -> movie_in (in_two name k q main) (str "set.rar") (str name) main.
Proof.
  intros Ha Hb Hq Hm Hs Hn Ne Hk. split.
  - exists set_style, 0, [two_a name (lenN main) (takeN k main); two_b name (lenN main) (dropN k main)], (str name). split; [reflexivity|]. split.
    + apply more_on; [exact Ha|exact Hb| | |exact Hq]; repeat constructor; cbn [readable fst AHEAD ENDHEAD FHEAD h_method]; try (intros; vm_compute; discriminate); now right.
    + split; [reflexivity|]. split; [destruct (str name) eqn:E; [congruence|]; split; [discriminate|now symmetry]|].
      assert (P : parts_of (str name) [two_a name (lenN main) (takeN k main); two_b name (lenN main) (dropN k main)] = [takeN k main; dropN k main]).
      { unfold parts_of, pieces, two_a, two_b. cbn [v_items map concat piece_of fst snd app AHEAD ENDHEAD filter]. cbn [FHEAD h_text].
        destruct (list_eq_dec N.eq_dec (str "a.srt") (str name)) as [X|_]; [now destruct Hs|]. destruct (list_eq_dec N.eq_dec (str name) (str name)) as [_|X]; [|now destruct X]. reflexivity. }
      rewrite P. split; [now left|]. cbn [concat]. rewrite app_nil_r. symmetry. apply takeN_dropN.
  - exists (two_a name (lenN main) (takeN k main)). split; [exact Ha|]. split; [reflexivity|]. left. exists [str "a.srt"], []. split; [reflexivity|]. split; [exact Hm|]. constructor; [|constructor]. rewrite <- media_is. vm_compute. discriminate.
Qed.
Ltac two_ok := unfold volume_ok; split; [ok|split; [|ok]];
  match goal with
  | |- context[v_items (two_a _ _ _)] => eexists (_ :: _ :: _ :: nil), _; split; [reflexivity|]; split; [ok|now left]
  | |- _ => eexists (_ :: _ :: nil), _; split; [reflexivity|]; split; [ok|now left]
  end.
Definition e_disk : fs := in_two "a.avi" 50 (str "b.avi") e_main.
Lemma e_two_a : volume_ok (two_a "a.avi" (lenN e_main) (takeN 50 e_main)).
Proof. two_ok. Qed.
Lemma e_two_b : volume_ok (two_b "a.avi" (lenN e_main) (dropN 50 e_main)).
Proof. two_ok. Qed.
Lemma ends_dot p e n : n = p ++ str e -> In e [".avi"; ".mkv"; ".mp4"; ".m4v"; ".wmv"; ".vob"; ".mpg"; ".mpeg"; ".ts"; ".m2ts"; ".m2v"; ".m2p"; ".flac"; ".mp3"]%string -> media_name n.
Proof. intros -> H. now exists p, e. Qed.
Lemma e_movie_in : movie_in e_disk (str "set.rar") (str "a.avi") e_main.
Proof.
  apply two_in; [exact e_two_a|exact e_two_b|reflexivity| |discriminate|reflexivity|discriminate|vm_compute; discriminate].
  apply (ends_dot (str "a") ".avi"); [reflexivity|now left].
Qed.
Lemma not_rar_ending t : is_rar t = false -> ~ rar_ending t.
Proof. rewrite <- is_rar_spec. congruence. Qed.
Lemma not_mp3 t : Srr.ends_with t (str ".mp3") = false -> ~ mp3_ending t.
Proof. intros H X. apply ends_is in X. unfold text in *. congruence. Qed.
Lemma e_type : movie_in e_disk (str "set.rar") (str "a.avi") e_main /\ ~ rar_ending (str "b.avi") /\ fs_get e_disk (str "b.avi") = Some e_main /\ 14 <= lenN e_main /\ marked e_main /\ ~ id3_start e_main /\ ~ mp3_ending (str "b.avi") /\ ~ mp3_ending (str "set.rar").
Proof.
  split; [exact e_movie_in|]. split; [apply not_rar_ending; reflexivity|]. split; [reflexivity|]. split; [vm_compute; discriminate|].
  assert (S : starts (bstr "RIFF") e_main) by (apply begins_is; reflexivity).
  split; [left; exists (bstr "RIFF"); split; [now left|exact S]|]. split; [intros X; apply begins_is in X; vm_compute in X; discriminate X|].
  split; apply not_mp3; reflexivity.
Qed.
Lemma e_back : exists srs, avi_srs (str "pyReSample 0.7") (str "/tmp/a.avi") false (fun _ => 0) (file_of e_its) = Ok srs /\
  movie_at e_disk (str "set.rar") e_main /\ starts (bstr "RIFF") e_main /\ sample_restore_at Mp3Facts.digits_int e_disk false AVI srs (str "set.rar") = Ok (Rebuilt (file_of e_its)).
Proof.
  eexists. split; [vm_compute; reflexivity|]. split; [right; exists (str "a.avi"); exact e_movie_in|]. split; [apply begins_is; reflexivity|]. vm_compute. reflexivity.
Qed.
Definition s_main : bytes := bstr "some stream: words.".
Definition s_disk : fs := in_two "a.vob" 9 (str "b.vob") s_main.
Lemma s_movie_in : movie_in s_disk (str "set.rar") (str "a.vob") s_main.
Proof.
  apply two_in; [two_ok|two_ok|reflexivity| |discriminate|reflexivity|discriminate|vm_compute; discriminate].
  apply (ends_dot (str "a") ".vob"); [reflexivity|cbn [In]; tauto].
Qed.
Lemma s_back : exists srs, stream_srs (str "pyReSample 0.7") (str "/tmp/a.vob") (bstr "stream") false None = Ok (Some srs) /\ movie_at s_disk (str "set.rar") s_main /\ ~ marked s_main /\ ~ id3_start s_main /\ 14 <= lenN s_main /\
  (forall d, fs_get s_disk (str "set.rar") = Some d -> ~ tag_at_end d) /\ sample_restore_at Mp3Facts.digits_int s_disk false STREAM srs (str "set.rar") = Ok (Rebuilt (bstr "stream")).
Proof.
  eexists. split; [vm_compute; reflexivity|]. split; [right; exists (str "a.vob"); exact s_movie_in|].
  assert (B : forall s, begins_with s_main s = false -> ~ starts s s_main) by (intros s H X; apply begins_is in X; congruence). split; [|split; [apply B; reflexivity|split; [vm_compute; discriminate|split]]].
  - intros [(s & Hs & S)|[(a & La & (r & S))|(a & b & r & S & Ha & _)]].
    + revert S. apply B. unfold starts_list in Hs. cbn [In] in Hs. destruct Hs as [<-|[<-|[<-|[<-|[<-|[<-|[<-|[<-|[]]]]]]]]]; reflexivity.
    + assert (X : dropN 4 s_main = bstr "ftyp" ++ r) by (rewrite S, <- app_assoc, dropN_app_exact; [reflexivity|now symmetry]). vm_compute in X. discriminate X.
    + injection S as <- _ _. vm_compute in Ha. discriminate Ha.
  - intros d G (a & b & E & Lb). match type of G with ?x = _ => change x with (Some (ser_volume (two_a "a.vob" (lenN s_main) (takeN 9 s_main)))) in G end. injection G as G.
    assert (X : sub (lenN d - 128) 3 d = bstr "TAG").
    { rewrite E. unfold sub. rewrite !lenN_app, Lb. change (lenN (bstr "TAG")) with 3. rewrite dropN_app_exact by lia. now rewrite takeN_app_exact. }
    rewrite <- G in X. vm_compute in X. discriminate X.
  - vm_compute. reflexivity.
Qed.
(** an MKV movie; the sample has a header removed from its frames and an attachment *)
Definition k_disk : fs := in_two "a.mkv" 50 (str "b.mkv") MkvEx.e_main.
Lemma k_movie_in : movie_in k_disk (str "set.rar") (str "a.mkv") MkvEx.e_main.
Proof.
  apply two_in; [two_ok|two_ok|reflexivity| |discriminate|reflexivity|discriminate|vm_compute; discriminate].
  apply (ends_dot (str "a") ".mkv"); [reflexivity|cbn [In]; tauto].
Qed.
Lemma k_back : exists srs, Mkv.mkv_srs (str "pyReSample 0.7") (str "/tmp/a.mkv") false (fun _ => 0) (MkvSpec.file_of MkvEx.e_ps) = Ok srs /\
  movie_at k_disk (str "set.rar") MkvEx.e_main /\ starts [x1a; x45; xdf; xa3] MkvEx.e_main /\ 14 <= lenN MkvEx.e_main /\ sample_restore_at Mp3Facts.digits_int k_disk false MKV srs (str "set.rar") = Ok (Rebuilt (MkvSpec.file_of MkvEx.e_ps)).
Proof.
  eexists. split; [vm_compute; reflexivity|]. split; [right; exists (str "a.mkv"); exact k_movie_in|]. split; [apply begins_is; reflexivity|]. split; [vm_compute; discriminate|]. vm_compute. reflexivity.
Qed.
(** a WMV movie *)
Definition w_disk : fs := in_two "a.wmv" 400 (str "b.wmv") WmvEx.e_main.
Lemma w_movie_in : movie_in w_disk (str "set.rar") (str "a.wmv") WmvEx.e_main.
Proof.
  apply two_in; [two_ok|two_ok|reflexivity| |discriminate|reflexivity|discriminate|vm_compute; discriminate].
  apply (ends_dot (str "a") ".wmv"); [reflexivity|cbn [In]; tauto].
Qed.
Lemma w_back : exists srs, Wmv.wmv_srs (str "pyReSample 0.7") (str "/tmp/a.wmv") false (fun _ => 0) (WmvSpec.file_of WmvEx.e_a) = Ok srs /\
  movie_at w_disk (str "set.rar") WmvEx.e_main /\ starts [x30; x26; xb2; x75; x8e; x66; xcf; x11] WmvEx.e_main /\ 14 <= lenN WmvEx.e_main /\ sample_restore_at Mp3Facts.digits_int w_disk false WMV srs (str "set.rar") = Ok (Rebuilt (WmvSpec.file_of WmvEx.e_a)).
Proof.
  eexists. split; [vm_compute; reflexivity|]. split; [right; exists (str "a.wmv"); exact w_movie_in|]. split; [apply begins_is; reflexivity|]. split; [vm_compute; discriminate|]. vm_compute. reflexivity.
Qed.
(** an MP4 movie that is the first file of its volumes *)
Definition one_a (name : string) (size : N) (d : bytes) : volume :=
  mkVolume [(AHEAD, []); (HFile (FHEAD 2 name size 0x11) (lenN d), d); (ENDHEAD, [])] [].
Definition p_disk : fs := more_disk (one_a "a.mp4" (lenN Mp4Ex.e_main) (takeN 60 Mp4Ex.e_main)) (two_b "a.mp4" (lenN Mp4Ex.e_main) (dropN 60 Mp4Ex.e_main)) (str "b.mp4") Mp4Ex.e_main.
Lemma p_one : volume_ok (one_a "a.mp4" (lenN Mp4Ex.e_main) (takeN 60 Mp4Ex.e_main)).
Proof. unfold volume_ok; split; [ok|split; [|ok]]. eexists (_ :: _ :: nil), _; split; [reflexivity|]; split; [ok|now left]. Qed.
Lemma p_two : volume_ok (two_b "a.mp4" (lenN Mp4Ex.e_main) (dropN 60 Mp4Ex.e_main)).
Proof. two_ok. Qed.
Lemma p_on : on_disk p_disk set_style 0 false [one_a "a.mp4" (lenN Mp4Ex.e_main) (takeN 60 Mp4Ex.e_main); two_b "a.mp4" (lenN Mp4Ex.e_main) (dropN 60 Mp4Ex.e_main)].
Proof. apply more_on; [exact p_one|exact p_two| | |reflexivity]; repeat constructor; cbn [readable fst AHEAD ENDHEAD FHEAD h_method]; try (intros; vm_compute; discriminate); now right. Qed.
Lemma p_first : movie p_disk (str "set.rar") [] Mp4Ex.e_main.
Proof.
  right. exists set_style, 0, [one_a "a.mp4" (lenN Mp4Ex.e_main) (takeN 60 Mp4Ex.e_main); two_b "a.mp4" (lenN Mp4Ex.e_main) (dropN 60 Mp4Ex.e_main)], (str "a.mp4"). split; [reflexivity|]. split; [exact p_on|]. split; [reflexivity|]. split.
  - split; [discriminate|]. constructor; [reflexivity|]. constructor; [reflexivity|constructor].
  - split; [left; vm_compute; discriminate|]. vm_compute. reflexivity.
Qed.
Lemma p_movie_in : movie_in p_disk (str "set.rar") (str "a.mp4") Mp4Ex.e_main.
Proof.
  split.
  - exists set_style, 0, [one_a "a.mp4" (lenN Mp4Ex.e_main) (takeN 60 Mp4Ex.e_main); two_b "a.mp4" (lenN Mp4Ex.e_main) (dropN 60 Mp4Ex.e_main)], (str "a.mp4"). split; [reflexivity|]. split; [exact p_on|]. split; [reflexivity|]. split.
    + split; [discriminate|reflexivity].
    + split; [left; vm_compute; discriminate|]. vm_compute. reflexivity.
  - exists (one_a "a.mp4" (lenN Mp4Ex.e_main) (takeN 60 Mp4Ex.e_main)). split; [exact p_one|]. split; [reflexivity|]. left. exists [], []. split; [reflexivity|]. split; [|constructor]. apply (ends_dot (str "a") ".mp4"); [reflexivity|cbn [In]; tauto].
Qed.
Definition p_sample : bytes := Mp4Spec.mp4_file Mp4Ex.ftyp Mp4Ex.e_h Mp4Ex.e_pay Mp4Ex.e_b.
Lemma p_back : exists srs, Mp4.mp4_srs (str "pyReSample 0.7") (str "/tmp/a.mp4") false (fun _ => 0) p_sample = Ok srs /\
  movie_at p_disk (str "set.rar") Mp4Ex.e_main /\ starts ([x00; x00; x00; x0c] ++ bstr "ftyp") Mp4Ex.e_main /\ 14 <= lenN Mp4Ex.e_main /\ movie p_disk (str "set.rar") [] Mp4Ex.e_main /\
  sample_restore_at Mp3Facts.digits_int p_disk false MP4 srs (str "set.rar") = Ok (Rebuilt p_sample).
Proof.
  eexists. split; [vm_compute; reflexivity|]. split; [right; exists (str "a.mp4"); exact p_movie_in|]. split; [apply begins_is; reflexivity|]. split; [vm_compute; discriminate|]. split; [exact p_first|]. vm_compute. reflexivity.
Qed.
(** and one that is not *)
Definition q_disk : fs := in_two "a.mp4" 60 (str "b.mp4") Mp4Ex.e_main.
Lemma q_movie_in : movie_in q_disk (str "set.rar") (str "a.mp4") Mp4Ex.e_main.
Proof.
  apply two_in; [two_ok|two_ok|reflexivity| |discriminate|reflexivity|discriminate|vm_compute; discriminate].
  apply (ends_dot (str "a") ".mp4"); [reflexivity|cbn [In]; tauto].
Qed.
Lemma mp4_witness : exists f path main srs a b sample, movie_at f path main /\ starts ([x00; x00; a; b] ++ bstr "ftyp") main /\ 14 <= lenN main /\ Mp4.mp4_restore false srs main = Ok (Rebuilt sample) /\
  sample_restore_at Mp3Facts.digits_int f false MP4 srs path = Ok (Abort 3).
Proof.
  exists q_disk, (str "set.rar"), Mp4Ex.e_main, (match Mp4.mp4_srs (str "pyReSample 0.7") (str "/tmp/a.mp4") false (fun _ => 0) p_sample with Ok s => s | Err _ => [] end), x00, x0c, p_sample. split; [right; exists (str "a.mp4"); exact q_movie_in|].
  split; [apply begins_is; reflexivity|]. split; [vm_compute; discriminate|]. split; [vm_compute; reflexivity|]. vm_compute. reflexivity.
Qed.
(** An MP3 file that begins with an ID3 tag: of the first 8 bytes the size of the tag is wanted at 6 to 10. *)
Definition i_main : bytes := bstr "ID3" ++ [x03; x00; x00; x00; x00; x00; x00; xff; xfb; x90; x00].
Lemma id3_witness : exists f path archived q main, movie_in f path archived main /\ ~ rar_ending q /\ fs_get f q = Some main /\ 14 <= lenN main /\ file_type_info f q = Ok (MP3, []) /\ file_type_info f path = Err TypeError.
Proof.
  exists (in_two "a.mp3" 8 (str "b.mp3") i_main), (str "set.rar"), (str "a.mp3"), (str "b.mp3"), i_main. split.
  - apply two_in; [two_ok|two_ok|reflexivity| |discriminate|reflexivity|discriminate|vm_compute; discriminate]. apply (ends_dot (str "a") ".mp3"); [reflexivity|cbn [In]; tauto].
  - split; [apply not_rar_ending; reflexivity|]. split; [reflexivity|]. split; [vm_compute; discriminate|]. split; vm_compute; reflexivity.
Qed.
(** A movie with its extension in capitals, behind another file: it is not looked at. *)
Definition c_vol : volume := two_a "a.AVI" (lenN e_main) (takeN 50 e_main).
Definition c_vol2 : volume := two_b "a.AVI" (lenN e_main) (dropN 50 e_main).
Definition c_disk : fs := in_two "a.AVI" 50 (str "b.avi") e_main.
Lemma c_vol_ok : volume_ok c_vol.
Proof. unfold c_vol. two_ok. Qed.
Lemma c_vol2_ok : volume_ok c_vol2.
Proof. unfold c_vol2. two_ok. Qed.
Lemma c_in : in_volumes c_disk (str "set.rar") (str "a.AVI") e_main.
Proof.
  exists set_style, 0, [c_vol; c_vol2], (str "a.AVI"). split; [reflexivity|]. split.
  - apply more_on; [exact c_vol_ok|exact c_vol2_ok| | |reflexivity]; repeat constructor; cbn [readable fst AHEAD ENDHEAD FHEAD h_method]; try (intros; vm_compute; discriminate); now right.
  - split; [reflexivity|]. split; [split; [discriminate|reflexivity]|]. split; [left; vm_compute; discriminate|]. vm_compute. reflexivity.
Qed.
Lemma c_names : In (str "a.AVI") (names_in c_vol) /\ Forall (fun n => n = str "a.AVI" \/ ~ media_name n) (names_in c_vol).
Proof.
  split; [right; now left|]. constructor; [right; rewrite <- media_is; vm_compute; discriminate|]. constructor; [now left|constructor].
Qed.
Lemma c_type : file_type_info c_disk (str "set.rar") = Ok (Unknown, []).
Proof. vm_compute. reflexivity. Qed.
Lemma e_pure : exists srs, avi_restore false srs e_main = Ok (Rebuilt (file_of e_its)).
Proof. exists (match avi_srs (str "pyReSample 0.7") (str "/tmp/a.avi") false (fun _ => 0) (file_of e_its) with Ok s => s | Err _ => [] end). vm_compute. reflexivity. Qed.
Lemma capital_witness : exists f path name v main srs, in_volumes f path name main /\ volume_ok v /\ fs_get f path = Some (ser_volume v) /\ In name (names_in v) /\ lower name = str "a.avi" /\ Forall (fun n => n = name \/ ~ media_name n) (names_in v) /\
  starts (bstr "RIFF") main /\ 14 <= lenN main /\ avi_restore false srs main = Ok (Rebuilt (file_of e_its)) /\ sample_restore_at Mp3Facts.digits_int f false AVI srs path = Ok (Abort 1).
Proof.
  destruct e_pure as (srs & R). destruct c_names as (C1 & C2). exists c_disk, (str "set.rar"), (str "a.AVI"), c_vol, e_main, srs. split; [exact c_in|]. split; [exact c_vol_ok|]. split; [reflexivity|]. split; [exact C1|]. split; [reflexivity|]. split; [exact C2|].
  split; [apply begins_is; reflexivity|]. split; [vm_compute; discriminate|]. split; [exact R|]. unfold sample_restore_at. rewrite c_type. reflexivity.
Qed.
(** a FLAC file, and an MP3 file without an ID3v2 tag *)
Definition f_sample : bytes := FlacSpec.flac_sample FlacFacts.x_blocks FlacFacts.x_last FlacFacts.x_frames.
Definition f_main : bytes := FlacSpec.flac_file [bstr "fLaC"; FlacSpec.meta 0 (repN 34 x11); FlacSpec.meta 132 (bstr "other")] FlacFacts.x_frames None.
Definition f_disk : fs := in_two "a.flac" 70 (str "b.flac") f_main.
Lemma f_movie_in : movie_in f_disk (str "set.rar") (str "a.flac") f_main.
Proof.
  apply two_in; [two_ok|two_ok|reflexivity| |discriminate|reflexivity|discriminate|vm_compute; discriminate].
  apply (ends_dot (str "a") ".flac"); [reflexivity|cbn [In]; tauto].
Qed.
Lemma no_ftyp m : begins_with (dropN 4 m) (bstr "ftyp") = false -> ~ starts (bstr "ftyp") (dropN 4 m).
Proof. intros H X. apply begins_is in X. congruence. Qed.
Lemma f_back : exists srs, Flac.flac_srs (str "pyReSample 0.7") (str "/tmp/a.flac") false 0 None f_sample = Ok srs /\
  movie_at f_disk (str "set.rar") f_main /\ starts (bstr "fLaC") f_main /\ ~ starts (bstr "ftyp") (dropN 4 f_main) /\ 14 <= lenN f_main /\ sample_restore_at Mp3Facts.digits_int f_disk false FLAC srs (str "set.rar") = Ok (Rebuilt f_sample).
Proof.
  eexists. split; [vm_compute; reflexivity|]. split; [right; exists (str "a.flac"); exact f_movie_in|]. split; [apply begins_is; reflexivity|]. split; [apply no_ftyp; reflexivity|]. split; [vm_compute; discriminate|]. vm_compute. reflexivity.
Qed.
Definition m_sample : bytes := mp3_file Mp3Facts.m_front Mp3Facts.m_audio Mp3Facts.m_tl.
Definition m_main : bytes := mp3_file [] (Mp3Facts.m_audio ++ bstr "more") Mp3Facts.m_tl'.
Definition m_disk : fs := in_two "a.mp3" 70 (str "b.mp3") m_main.
Lemma m_movie_in : movie_in m_disk (str "set.rar") (str "a.mp3") m_main.
Proof.
  apply two_in; [two_ok|two_ok|reflexivity| |discriminate|reflexivity|discriminate|vm_compute; discriminate].
  apply (ends_dot (str "a") ".mp3"); [reflexivity|cbn [In]; tauto].
Qed.
Lemma m_back : exists srs, Mp3.mp3_srs Mp3Facts.digits_int (str "pyReSample 0.7") (str "/tmp/a.mp3") false 0 Mp3Facts.m_print m_sample = Ok srs /\
  movie_at m_disk (str "set.rar") m_main /\ sync m_main /\ ~ starts (bstr "ftyp") (dropN 4 m_main) /\ 14 <= lenN m_main /\ sample_restore_at Mp3Facts.digits_int m_disk false MP3 srs (str "set.rar") = Ok (Rebuilt m_sample).
Proof.
  eexists. split; [vm_compute; reflexivity|]. split; [right; exists (str "a.mp3"); exact m_movie_in|]. split; [exists xfb; eexists; split; [reflexivity|vm_compute; discriminate]|]. split; [apply no_ftyp; reflexivity|]. split; [vm_compute; discriminate|]. vm_compute. reflexivity.
Qed.
