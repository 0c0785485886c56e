(** MovieFacts: the type of a movie, as it is or inside RAR volumes. *)
From Verif Require Mp3 Mp3ProgFacts Flac FlacProgFacts MkvRetry MkvProgFacts Wmv WmvProgFacts Mp4 Mp4ProgFacts.
From Verif Require Import Base BaseFacts Path VolName VolSpec VolFacts Rar RarSpec ReadSpec ReadAllFacts Srr SetSpec Stream StreamSpec StreamFacts PartFacts SrsRec Srs StrmSrs Mp3Spec Prog ProgSpec ProgFacts AviProg StrmProg StrmProgFacts MovieType MovieSpec.

Lemma ends_is t e : Srr.ends_with t e = true <-> exists q, t = q ++ e.
Proof. apply ends_with_spec. Qed.
Lemma media_is t : ends_any EXTENSIONS t = true <-> media_name t.
Proof.
  unfold ends_any, media_name. rewrite existsb_exists. split.
  - intros (e & He & H). apply ends_is in H as (q & ->). exists q. unfold EXTENSIONS, STREAM_EXTENSIONS in He. cbn [map app In] in He.
    repeat (destruct He as [<-|He]; [eexists; split; [|reflexivity]; cbn [In]; tauto|]). destruct He.
  - intros (p & e & He & ->). exists (str e). split; [|apply ends_is; now exists p]. unfold EXTENSIONS, STREAM_EXTENSIONS. cbn [In map app] in *.
    repeat (destruct He as [<-|He]; [tauto|]). destruct He.
Qed.
Lemma picked_is names archived : picked names archived -> match find (ends_any EXTENSIONS) names with Some n => n | None => [] end = archived.
Proof.
  assert (F : forall a b, Forall (fun n => ~ media_name n) a -> find (ends_any EXTENSIONS) (a ++ b) = find (ends_any EXTENSIONS) b).
  { induction a as [|x a IH]; intros b H; [reflexivity|]. apply Forall_cons_iff in H as [Hx Ha]. cbn [app find]. rewrite <- media_is in Hx. destruct (ends_any EXTENSIONS x); [congruence|now apply IH]. }
  intros [(a & b & -> & Hm & Ha)|[Ha ->]].
  - rewrite F by exact Ha. cbn [find]. apply media_is in Hm. now rewrite Hm.
  - rewrite <- (app_nil_r names), F by exact Ha. reflexivity.
Qed.
Lemma names_blocks l : forall pos, concat (map block_files (vblks pos l)) = concat (map item_names l).
Proof.
  induction l as [|[hd d] l IH]; intros pos; [reflexivity|]. cbn [vblks map concat]. rewrite IH. f_equal. unfold block_files, hblk, sblk, item_names. cbn [fst b_kind s_kind].
  destruct hd as [h p|h mark rs ds p|crc fl ver rs ds p ex|h sd|crc ty fl body sd]; cbn [head_kind]; try reflexivity. destruct body; [reflexivity|]. destruct (ty =? 0x73); [reflexivity|]. now destruct (ty =? 0x7B).
Qed.
Lemma list_ok f path v : volume_ok v -> fs_get f path = Some (ser_volume v) -> list_files f path = Ok (names_in v).
Proof.
  intros Hv G. unfold list_files, read_archive. rewrite G, read_all_volume by exact Hv. cbn [bind]. unfold volume_blocks. rewrite map_app, concat_app, names_blocks. cbn [map concat item_names fst MARKER app].
  replace (concat (map block_files (padblks _ (v_pad v)))) with (@nil text) by (unfold padblks; now destruct (v_pad v)). now rewrite app_nil_r.
Qed.

(** ** The first bytes *)
Lemma begins_is m p : begins_with m p = true <-> starts p m.
Proof.
  unfold begins_with, starts. revert m. induction p as [|x p IH]; intros m; cbn [starts_with]; [split; [now exists m|reflexivity]|]. destruct m as [|y m]; [split; [discriminate|intros (r & H); discriminate H]|].
  rewrite andb_true_iff, IH. split.
  - intros (H & r & ->). exists r. apply Byte.byte_dec_bl in H. now subst.
  - intros (r & H). injection H as <- ->. split; [apply Byte.byte_dec_lb; reflexivity|now exists r].
Qed.
Lemma begins_take n m p : lenN p <= n -> begins_with (takeN n m) p = begins_with m p.
Proof.
  intros H. apply eq_true_iff_eq. rewrite !begins_is. unfold starts. split; intros (r & E).
  - exists (r ++ dropN n m). rewrite app_assoc, <- E. symmetry. apply takeN_dropN.
  - subst m. exists (takeN (n - lenN p) r). now rewrite takeN_app, takeN_all by exact H.
Qed.
Lemma marker_take ifile d n m : 8 <= n -> begins_with m M_ID3 = false -> by_marker ifile d (takeN n m) = by_marker ifile d m.
Proof.
  intros H I. assert (T : forall p, lenN p <= 8 -> begins_with (takeN n m) p = begins_with m p) by (intros p Hp; apply begins_take; lia).
  unfold by_marker. rewrite (T M_MKV), (T M_AVI), (T M_3GP), (T M_WMV), (T M_FLAC), (T MARKER_STREAM_SRS), (T MARKER_M2TS_SRS), (T M_ID3), (T (bstr "SRSF")) by (vm_compute; discriminate). rewrite I.
  replace (begins_with (dropN 4 (takeN n m)) M_MP4) with (begins_with (dropN 4 m) M_MP4) by (rewrite dropN_takeN, begins_take; [reflexivity|change (lenN M_MP4) with 4; lia]).
  replace (unpack_be 2 (takeN n m) 0) with (unpack_be 2 m 0); [reflexivity|]. unfold unpack_be, sub. change (N.of_nat 2) with 2. rewrite !dropN_0. now rewrite takeN_takeN, N.min_l by lia.
Qed.

Lemma read_rar f path archived x : is_rar path = true -> open_run f path archived (p_read 8) = Ok x ->
  (do t <- rar_stream f path (Some archived) false false; do r <- read f t 8; Ok (snd r)) = Ok x.
Proof.
  intros R H. unfold open_run in H. rewrite R in H. destruct (rar_stream f path (Some archived) false false) as [t|e]; [|discriminate H]. cbn [bind] in *.
  unfold p_read in H. cbn [run stream_op] in H. destruct (read f t 8) as [[t' d]|e]; [|discriminate H]. cbn [run bind fst snd] in *. exact H.
Qed.
Lemma in_rar f path archived main : in_volumes f path archived main -> is_rar path = true.
Proof. intros (s & first & vols & n & -> & (H1 & H2 & _) & _). apply name_rar; [exact H1|lia]. Qed.
Lemma volume_start v : volume_ok v -> begins_with (takeN 14 (ser_volume v)) M_RAR = true /\ lenN (takeN 14 (ser_volume v)) = 14.
Proof.
  intros (_ & _ & _ & L). split; [|rewrite lenN_takeN; lia]. rewrite begins_take by (vm_compute; discriminate). apply begins_is. unfold ser_volume. exists (concat (map ser_item (v_items v)) ++ v_pad v). f_equal.
Qed.
Lemma info_in f path archived main d : movie_in f path archived main -> ~ id3_start main -> fs_get f path = Some d ->
  file_type_info f path = do t <- by_marker path d main; Ok (t, archived).
Proof.
  intros (M & v & Hv & G & P) I Gd. assert (R := in_rar _ _ _ _ M). unfold file_type_info. rewrite G. assert (d = ser_volume v) by congruence. subst d.
  destruct (volume_start v Hv) as (S & L). cbv zeta. rewrite L, S, R. change (14 <? 14) with false. cbv iota. cbn [andb].
  rewrite (list_ok f path v Hv G). rewrite (picked_is _ _ P).
  rewrite (read_rar f path archived (takeN 8 main) R).
  - rewrite marker_take; [reflexivity|lia|]. apply not_true_iff_false. rewrite begins_is. exact I.
  - rewrite (open_same f path archived main _ (or_intror M)). change 8%Z with (Z.of_N 8). rewrite run_read, AviProgFacts.read_at_pos. unfold sub. now rewrite dropN_0.
Qed.
Lemma info_file f path main : ~ rar_ending path -> fs_get f path = Some main -> 14 <= lenN main -> ~ id3_start main ->
  file_type_info f path = if begins_with main M_RAR5 then Ok (Unknown, []) else do t <- by_marker path main main; Ok (t, []).
Proof.
  intros R G L I. unfold file_type_info. rewrite G. cbv zeta. rewrite lenN_takeN, N.min_l by exact L. change (14 <? 14) with false. cbv iota.
  replace (is_rar path) with false by (symmetry; apply not_true_iff_false; now rewrite is_rar_spec). rewrite andb_false_r, begins_take by (vm_compute; discriminate).
  rewrite marker_take; [reflexivity|lia|]. apply not_true_iff_false. rewrite begins_is. exact I.
Qed.
Lemma rar_not_mp3 path : rar_ending path -> ~ mp3_ending path.
Proof.
  intros H (q & E). apply (f_equal (@rev N)) in E. rewrite rev_app_distr in E. change (rev (str ".mp3")) with [51; 112; 109; 46] in E.
  destruct H as [(p & e & -> & U)|(p & c & a & b & -> & A & B & _)].
  - rewrite rev_app_distr in E. unfold up_to_case in U. change (str ".rar") with [46; 114; 97; 114] in U.
    inversion U as [|e0 ? l0 ? _ U0]; subst. inversion U0 as [|e1 ? l1 ? _ U1]; subst. inversion U1 as [|e2 ? l2 ? _ U2]; subst. inversion U2 as [|e3 ? l3 ? H3 U3]; subst. inversion U3; subst. cbn [rev app] in E. injection E as -> _ _ _ _. lia.
  - rewrite rev_app_distr in E. cbn [rev app] in E. injection E as -> -> _. unfold is_digit in A. lia.
Qed.

(** ** The type *)
Lemma no_start m s : ~ starts s m -> begins_with m s = false.
Proof. intros H. apply not_true_iff_false. now rewrite begins_is. Qed.
Lemma sync_land x : 0xE0 <= x < 256 -> N.land (256 * 0xFF + x) 0xFFE0 =? 0xFFE0 = true.
Proof.
  intros Hx. assert (X : forallb (fun y => N.land (256 * 0xFF + (0xE0 + N.of_nat y)) 0xFFE0 =? 0xFFE0) (seq 0 32) = true) by reflexivity. rewrite forallb_forall in X. specialize (X (N.to_nat (x - 0xE0))). rewrite N2Nat.id in X. replace (0xE0 + (x - 0xE0)) with x in X by lia. apply X. apply in_seq. lia.
Qed.
Lemma marked_type m : marked m -> ~ id3_start m -> exists t, t <> Unknown /\ forall i d, ~ mp3_ending i -> by_marker i d m = Ok t.
Proof.
  intros M I. assert (E : forall i, ~ mp3_ending i -> Srr.ends_with i (str ".mp3") = false) by (intros i H; apply not_true_iff_false; now rewrite ends_is).
  unfold by_marker. destruct (begins_with m M_MKV) eqn:B1; [now exists MKV|]. destruct (begins_with m M_AVI) eqn:B2; [exists AVI; split; [discriminate|intros i d H; now rewrite (E i H)]|].
  destruct (_ || _) eqn:B3; [now exists MP4|]. apply orb_false_iff in B3 as (B3 & B4). destruct (begins_with m M_WMV) eqn:B5; [now exists WMV|]. destruct (begins_with m M_FLAC) eqn:B6; [now exists FLAC|].
  destruct (begins_with m MARKER_STREAM_SRS) eqn:B7; [now exists STREAM|]. destruct (begins_with m MARKER_M2TS_SRS) eqn:B8; [now exists M2TS|]. replace (begins_with m M_ID3) with false by (symmetry; now apply no_start).
  destruct (begins_with m (bstr "SRSF")) eqn:B9; [now exists MP3|]. exists MP3. split; [discriminate|]. intros i d _. destruct M as [(s & Hs & S)|[(a & La & S)|(a & b & r & -> & Ha & Hb)]].
  - exfalso. apply begins_is in S. unfold starts_list in Hs. cbn [In] in Hs.
    destruct Hs as [<-|[<-|[<-|[<-|[<-|[<-|[<-|[<-|[]]]]]]]]]; match type of S with ?x = true => assert (x = false) by assumption end; congruence.
  - exfalso. destruct S as (r & ->). rewrite <- app_assoc, dropN_app_exact in B3 by now symmetry. apply not_true_iff_false in B3. apply B3, begins_is. now exists r.
  - unfold unpack_be, sub. rewrite dropN_0. change (takeN (N.of_nat 2) (a :: b :: r)) with (takeN 2 ([a; b] ++ r)). rewrite takeN_app_exact by reflexivity. change (lenN [a; b] =? N.of_nat 2) with true. cbn [bind].
    assert (U : unbe [a; b] = 256 * b2n a + b2n b) by (unfold unbe; cbn [rev app unle]; lia). rewrite U, Ha. pose proof (b2n_lt b) as Lb.
    rewrite sync_land by lia. reflexivity.
Qed.
Lemma not_rar5 m : marked m -> begins_with m M_RAR5 = false.
Proof.
  intros M. apply not_true_iff_false. rewrite begins_is. intros (r & ->). change M_RAR5 with [x52; x61; x72; x21; x1a; x07; x01; x00] in M. cbn [app] in M. destruct M as [(s & Hs & q & E)|[(a & La & q & E)|(a & b & q & E & Ha & _)]].
  - unfold starts_list in Hs. cbn [In] in Hs. destruct Hs as [<-|[<-|[<-|[<-|[<-|[<-|[<-|[<-|[]]]]]]]]]; cbn in E; discriminate E.
  - destruct a as [|a1 [|a2 [|a3 [|a4 [|]]]]]; try (vm_compute in La; discriminate La); [|rewrite !lenN_cons in La; lia]. cbn in E. injection E. discriminate.
  - injection E as <- <- <-. vm_compute in Ha. discriminate Ha.
Qed.
Theorem type_same f path archived q main : movie_in f path archived main -> ~ rar_ending q -> fs_get f q = Some main -> 14 <= lenN main -> marked main -> ~ id3_start main -> ~ mp3_ending q ->
  exists t, t <> Unknown /\ file_type_info f q = Ok (t, []) /\ file_type_info f path = Ok (t, archived).
Proof.
  intros M R G L Mk I E. destruct (marked_type main Mk I) as (t & Nt & T). exists t. split; [exact Nt|]. split.
  - rewrite (info_file f q main R G L I), (not_rar5 main Mk), (T q main E). reflexivity.
  - destruct M as (M & v & Hv & Gv & P). rewrite (info_in f path archived main (ser_volume v)); [|split; [exact M|now exists v]|exact I|exact Gv].
    rewrite T; [reflexivity|]. apply rar_not_mp3. rewrite <- is_rar_spec. now apply in_rar in M.
Qed.
Theorem avi_at py_int f path main no_stored srs : movie_at f path main -> starts (bstr "RIFF") main -> 14 <= lenN main -> ~ mp3_ending path ->
  sample_restore_at py_int f no_stored AVI srs path = Avi.avi_restore no_stored srs main.
Proof.
  intros M S L E. assert (I : ~ id3_start main) by (destruct S as (r & ->); intros (q & Q); cbn in Q; discriminate Q).
  assert (Mk : marked main) by (left; exists (bstr "RIFF"); split; [now left|exact S]).
  assert (B : by_marker path main main = Ok AVI /\ forall d, by_marker path d main = Ok AVI).
  { assert (B : forall d, by_marker path d main = Ok AVI); [|now split]. intros d. unfold by_marker. assert (S2 := S). apply begins_is in S2. replace (begins_with main M_AVI) with true by (symmetry; exact S2).
    replace (begins_with main M_MKV) with false by (destruct S as (r & ->); reflexivity). replace (Srr.ends_with path (str ".mp3")) with false by (symmetry; apply not_true_iff_false; now rewrite ends_is). reflexivity. }
  destruct B as (_ & B). unfold sample_restore_at. destruct M as [(R & G)|(archived & M)].
  - rewrite (info_file f path main R G L I), (not_rar5 main Mk), B. cbn [bind]. apply avi_restore_same; [now left|lia].
  - destruct M as (M & v & Hv & Gv & P). rewrite (info_in f path archived main (ser_volume v)); [|split; [exact M|now exists v]|exact I|exact Gv]. rewrite B. cbn [bind]. apply avi_restore_same; [now right|lia].
Qed.
Theorem mkv_at py_int f path main no_stored srs : movie_at f path main -> starts [x1a; x45; xdf; xa3] main -> 14 <= lenN main ->
  sample_restore_at py_int f no_stored MKV srs path = MkvRetry.mkv_restore_all no_stored srs main.
Proof.
  intros M S L. assert (I : ~ id3_start main) by (destruct S as (r & ->); intros (q & Q); cbn in Q; discriminate Q).
  assert (Mk : marked main) by (left; exists [x1a; x45; xdf; xa3]; split; [right; now left|exact S]).
  assert (B : forall d, by_marker path d main = Ok MKV).
  { intros d. unfold by_marker. apply begins_is in S. now replace (begins_with main M_MKV) with true. }
  unfold sample_restore_at. destruct M as [(R & G)|(archived & M)].
  - rewrite (info_file f path main R G L I), (not_rar5 main Mk), B. cbn [bind]. apply MkvProgFacts.mkv_restore_same. now left.
  - destruct M as (M & v & Hv & Gv & P). rewrite (info_in f path archived main (ser_volume v)); [|split; [exact M|now exists v]|exact I|exact Gv]. rewrite B. cbn [bind]. apply MkvProgFacts.mkv_restore_same. now right.
Qed.
Theorem wmv_at py_int f path main no_stored srs : movie_at f path main -> starts [x30; x26; xb2; x75; x8e; x66; xcf; x11] main -> 14 <= lenN main ->
  sample_restore_at py_int f no_stored WMV srs path = Wmv.wmv_restore no_stored srs main.
Proof.
  intros M S L. assert (I : ~ id3_start main) by (destruct S as (r & ->); intros (q & Q); cbn in Q; discriminate Q).
  assert (S4 : starts [x30; x26; xb2; x75] main) by (destruct S as (r & ->); now exists ([x8e; x66; xcf; x11] ++ r)).
  assert (Mk : marked main) by (left; exists [x30; x26; xb2; x75]; split; [unfold starts_list; cbn [In]; tauto|exact S4]).
  assert (B : forall d, by_marker path d main = Ok WMV).
  { intros d. destruct S as (r & ->). reflexivity. }
  unfold sample_restore_at. destruct M as [(R & G)|(archived & M)].
  - rewrite (info_file f path main R G L I), (not_rar5 main Mk), B. cbn [bind]. apply WmvProgFacts.wmv_restore_same. now left.
  - destruct M as (M & v & Hv & Gv & P). rewrite (info_in f path archived main (ser_volume v)); [|split; [exact M|now exists v]|exact I|exact Gv]. rewrite B. cbn [bind]. apply WmvProgFacts.wmv_restore_same. now right.
Qed.
Theorem mp4_at py_int f path main no_stored srs a b : movie_at f path main -> starts ([x00; x00; a; b] ++ bstr "ftyp") main -> 14 <= lenN main -> movie f path [] main ->
  sample_restore_at py_int f no_stored MP4 srs path = Mp4.mp4_restore no_stored srs main.
Proof.
  intros M S L M0. assert (I : ~ id3_start main) by (destruct S as (r & ->); intros (q & Q); cbn in Q; discriminate Q).
  assert (Mk : marked main) by (right; left; exists [x00; x00; a; b]; split; [reflexivity|exact S]).
  assert (B : forall d, by_marker path d main = Ok MP4) by (intros d; destruct S as (r & ->); reflexivity).
  unfold sample_restore_at. destruct M as [(R & G)|(archived & M)].
  - rewrite (info_file f path main R G L I), (not_rar5 main Mk), B. cbn [bind]. apply Mp4ProgFacts.mp4_restore_same; [now left|exact M0].
  - destruct M as (M & v & Hv & Gv & P). rewrite (info_in f path archived main (ser_volume v)); [|split; [exact M|now exists v]|exact I|exact Gv]. rewrite B. cbn [bind]. apply Mp4ProgFacts.mp4_restore_same; [now right|exact M0].
Qed.
Lemma unmarked_type i d m : ~ marked m -> ~ id3_start m -> ~ tag_at_end d -> 2 <= lenN m -> exists t, by_marker i d m = Ok t /\ (t = STREAM \/ t = Unknown).
Proof.
  intros M I T L. assert (N0 : forall s, In s starts_list -> begins_with m s = false) by (intros s Hs; apply no_start; intros S; apply M; left; now exists s).
  unfold by_marker. rewrite (N0 M_MKV), (N0 M_AVI), (N0 M_3GP), (N0 M_WMV), (N0 M_FLAC), (N0 MARKER_STREAM_SRS), (N0 MARKER_M2TS_SRS), (N0 (bstr "SRSF")) by (unfold starts_list; cbn [In]; tauto).
  rewrite (no_start m M_ID3) by exact I. replace (begins_with (dropN 4 m) M_MP4) with false.
  2:{ symmetry. apply no_start. intros (r & E). apply M. right. left. exists (takeN 4 m). assert (L4 : 4 <= lenN m) by (assert (X : lenN (dropN 4 m) = lenN (M_MP4 ++ r)) by (now rewrite E); rewrite lenN_app, lenN_dropN in X; change (lenN M_MP4) with 4 in X; lia).
      split; [rewrite lenN_takeN; lia|]. exists r. rewrite <- app_assoc. change (bstr "ftyp") with M_MP4. rewrite <- E. symmetry. apply takeN_dropN. }
  cbn [orb]. destruct m as [|a [|b m]]; [vm_compute in L; lia|rewrite lenN_cons in L; cbn [lenN] in L; lia|].
  unfold unpack_be, sub. rewrite dropN_0. change (takeN (N.of_nat 2) (a :: b :: m)) with (takeN 2 ([a; b] ++ m)). rewrite takeN_app_exact by reflexivity. change (lenN [a; b] =? N.of_nat 2) with true. cbn [bind].
  assert (U : unbe [a; b] = 256 * b2n a + b2n b) by (unfold unbe; cbn [rev app unle]; lia). rewrite U. pose proof (b2n_lt a) as La. pose proof (b2n_lt b) as Lb.
  assert (Q : N.land (256 * b2n a + b2n b) 0xFFE0 =? 0xFFE0 = false).
  { apply not_true_iff_false. intros Q. apply M. right. right. exists a, b, m. split; [reflexivity|]. apply N.eqb_eq in Q.
    change 0xFFE0 with (N.shiftl 0x7FF 5) in Q. assert (D : N.shiftr (256 * b2n a + b2n b) 5 = 0x7FF).
    { apply (f_equal (fun x => N.shiftr x 5)) in Q. rewrite N.shiftr_land, N.shiftr_shiftl_l, N.sub_diag, N.shiftl_0_r in Q by lia. change 0x7FF with (N.ones 11) in Q. rewrite N.land_ones in Q. rewrite N.mod_small in Q; [exact Q|]. rewrite N.shiftr_div_pow2. apply N.div_lt_upper_bound; [discriminate|]. change (2 ^ 5 * 2 ^ 11) with 65536. lia. }
    rewrite N.shiftr_div_pow2 in D. change (2 ^ 5) with 32 in D. lia. }
  rewrite Q. replace ((128 <=? lenN d) && beqb (takeN 3 (dropN (lenN d - 128) d)) (bstr "TAG")) with false.
  2:{ symmetry. apply not_true_iff_false. intros H. apply andb_true_iff in H as (H1 & H2). apply beqb_eq in H2. apply T. exists (takeN (lenN d - 128) d), (dropN (lenN d - 125) d). rewrite <- H2. split.
      - replace (dropN (lenN d - 125) d) with (dropN 3 (dropN (lenN d - 128) d)) by (rewrite dropN_dropN; f_equal; lia). now rewrite takeN_dropN, takeN_dropN.
      - rewrite lenN_dropN. lia. }
  eexists. split; [reflexivity|]. destruct (ends_any _ _); auto.
Qed.
Theorem stream_at py_int f path main no_stored srs : movie_at f path main -> ~ marked main -> ~ id3_start main -> 14 <= lenN main -> (forall d, fs_get f path = Some d -> ~ tag_at_end d) ->
  sample_restore_at py_int f no_stored STREAM srs path = stream_restore no_stored srs main.
Proof.
  intros M Nm I L T. unfold sample_restore_at. destruct M as [(R & G)|(archived & M)].
  - rewrite (info_file f path main R G L I). assert (S := stream_restore_same f path [] main no_stored srs (or_introl (conj R G))). destruct (begins_with main M_RAR5); [exact S|].
    destruct (unmarked_type path main main Nm I (T _ G)) as (t & B & Ht); [lia|]. rewrite B. cbn [bind]. destruct Ht as [-> | ->]; exact S.
  - destruct M as (M & v & Hv & Gv & P). rewrite (info_in f path archived main (ser_volume v)); [|split; [exact M|now exists v]|exact I|exact Gv].
    assert (S := stream_restore_same f path archived main no_stored srs (or_intror M)). destruct (unmarked_type path (ser_volume v) main Nm I (T _ Gv)) as (t & B & Ht); [lia|]. rewrite B. cbn [bind]. destruct Ht as [-> | ->]; exact S.
Qed.
(** ** Music *)
Lemma typed_at f path main t : movie_at f path main -> marked main -> ~ id3_start main -> 14 <= lenN main -> (forall d, by_marker path d main = Ok t) ->
  exists archived, movie f path archived main /\ file_type_info f path = Ok (t, archived).
Proof.
  intros [(R & G)|(archived & M)] Mk I L B.
  - exists []. split; [now left|]. now rewrite (info_file f path main R G L I), (not_rar5 main Mk), B.
  - exists archived. split; [right; exact (proj1 M)|]. destruct M as (M & v & Hv & Gv & P). rewrite (info_in f path archived main (ser_volume v)); [|split; [exact M|now exists v]|exact I|exact Gv]. now rewrite B.
Qed.
Theorem flac_at py_int f path main no_stored srs : movie_at f path main -> starts (bstr "fLaC") main -> ~ starts (bstr "ftyp") (dropN 4 main) -> 14 <= lenN main ->
  sample_restore_at py_int f no_stored FLAC srs path = Flac.flac_restore srs main.
Proof.
  intros M S F L. destruct (typed_at f path main FLAC M) as (archived & A & T).
  - left. exists (bstr "fLaC"). split; [unfold starts_list; cbn [In]; tauto|exact S].
  - destruct S as (r & ->). intros (q & Q). cbn in Q. discriminate Q.
  - exact L.
  - intros d. apply no_start in F. unfold by_marker. change M_MP4 with (bstr "ftyp"). rewrite F. destruct S as (r & ->). reflexivity.
  - unfold sample_restore_at. rewrite T. cbn [bind]. now apply FlacProgFacts.flac_restore_same.
Qed.
Theorem mp3_at py_int f path main no_stored srs : movie_at f path main -> sync main -> ~ starts (bstr "ftyp") (dropN 4 main) -> 14 <= lenN main ->
  sample_restore_at py_int f no_stored MP3 srs path = Mp3.mp3_restore py_int srs main.
Proof.
  intros M S F L. assert (Mk : marked main) by (right; right; destruct S as (b & r & -> & Hb); now exists xff, b, r).
  assert (I : ~ id3_start main) by (destruct S as (b & r & -> & _); intros (q & Q); cbn in Q; discriminate Q).
  destruct (typed_at f path main MP3 M Mk I L) as (archived & A & T).
  - intros d. apply no_start in F. unfold by_marker. change M_MP4 with (bstr "ftyp"). rewrite F. destruct S as (b & r & -> & Hb). cbn [orb]. unfold unpack_be, sub. rewrite dropN_0. change (takeN (N.of_nat 2) (xff :: b :: r)) with (takeN 2 ([xff; b] ++ r)). rewrite takeN_app_exact by reflexivity. change (lenN [xff; b] =? N.of_nat 2) with true. cbn [bind].
    assert (U : unbe [xff; b] = 256 * 0xFF + b2n b) by (unfold unbe; cbn [rev app unle]; change (b2n xff) with 255; lia). rewrite U, sync_land by (pose proof (b2n_lt b); lia). reflexivity.
  - unfold sample_restore_at. rewrite T. cbn [bind]. now apply Mp3ProgFacts.mp3_restore_same.
Qed.
