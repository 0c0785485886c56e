(** WmvMore: what is rebuilt from any main file, and creating SRS files. *)
From Verif Require Import Base BaseFacts Crc CrcFacts SrsRec SrsRecSpec SrsRecFacts Srs SrrFacts RecovFacts StrmFacts Avi Wmv StrmSpec Mp3Spec WmvSpec WmvPacket WmvRead WmvSrs WmvLoad WmvOut WmvFind WmvExtract WmvMain.
From Verif Require AviSrs AviExtract AviMore.
Import AviSrs(table, table_keys, table_ext, get_table, set_table, fd_of).
Import AviExtract(fl).
Import AviMore(sum_ext, sum_add, sum_zero, wf, wf_new, wf_set).

(** ** What is rebuilt *)
Lemma loop_inv {S} (P : S -> Prop) fuel m stop (act : S -> object -> result (S * N)) f : (forall s o r, P s -> act s o = Ok r -> P (fst r)) ->
  forall pos s s', P s -> asf_loop fuel m stop act f pos s = Ok s' -> P s'.
Proof.
  intros Ha. induction fuel as [|fuel IH]; intros pos s s' Hs H; [discriminate|]. cbn [asf_loop] in H. bindinv H. destruct v as [o|]; [|apply ok_inj in H; now subst]. destruct (stop s); [apply ok_inj in H; now subst|].
  bindinv H. pose proof (Ha _ _ _ Hs E0) as P1. now apply (IH (snd v) (fst v)).
Qed.
Lemma packets_inv {S} (P : S -> Prop) fuel exact (act : S -> N -> bytes -> parsed -> result (S * bool)) f psize : (forall s off d k r, P s -> act s off d k = Ok r -> P (fst r)) ->
  forall n off s s', P s -> packets fuel exact act f psize n off s = Ok s' -> P s'.
Proof.
  intros Ha. induction fuel as [|fuel IH]; intros n off s s' Hs H; [discriminate|]. cbn [packets] in H. destruct (n =? 0); [apply ok_inj in H; now subst|]. bindinv H. destruct (exact && _); [discriminate|]. bindinv H. bindinv H.
  pose proof (Ha _ _ _ _ _ Hs E1) as P1. destruct (snd v1); [apply ok_inj in H; now subst|]. exact (IH _ _ _ _ P1 H).
Qed.
Section Sound.
Variables (ns0 : list N) (td : N -> track_data).
Hypothesis Td : forall n, ~ In n ns0 -> td n = t_td (new_track n).
Let wf := AviMore.wf ns0 td.
Lemma find_payload_td t check y at_ r : find_payload t check y at_ = Ok r -> t_td (fst r) = t_td t.
Proof.
  intros H. unfold find_payload in H. cbv zeta in H. destruct ((t_offset t =? 0)%Z || _); [|destruct (_ <? _); apply ok_inj in H; now subst].
  match type of H with (let '(t, check) := ?x in _) = _ => destruct x as (t1, c1) eqn:E end.
  assert (T1 : t_td t1 = t_td t) by (destruct (_ && _); [destruct (starts_with _ _ _)|]; injection E as <- _; reflexivity). clear E.
  destruct c1; [|apply ok_inj in H; now subst]. destruct (td_signature (t_td t)) as [|z zs]; [discriminate|]. destruct (find_start _ _ 0) as [(p, c0)|]; apply ok_inj in H; now subst.
Qed.
Lemma find_pays_wf ys : forall at_ s s', wf (fst (fst s)) -> find_pays ys at_ s = Ok s' -> wf (fst (fst s')).
Proof.
  induction ys as [|y ys IH]; intros at_ s s' W H; cbn [find_pays] in H; [apply ok_inj in H; now subst|]. destruct s as ((ts, checks), done). cbn [fst snd] in W. bindinv H. bindinv H. apply IH in H; [exact H|]. cbn [fst snd]. apply (wf_set ns0 td (y_stream y) ts v); [exact W|exact E|]. now apply find_payload_td in E0.
Qed.
Lemma extract_payload_td t y at_ t' : extract_payload t y at_ = Some t' -> t_td t' = t_td t.
Proof. unfold extract_payload. destruct (_ <=? _)%Z; [|discriminate]. intros H. apply some_inj in H. now subst t'. Qed.
Lemma extract_pays_wf ys : forall at_ s s', wf (fst s) -> extract_pays ys at_ s = Ok s' -> wf (fst s').
Proof.
  induction ys as [|y ys IH]; intros at_ s s' W H; cbn [extract_pays] in H; [apply ok_inj in H; now subst|]. bindinv H. apply IH in H; [exact H|]. destruct (extract_payload v y _) as [t'|] eqn:Ee; cbn [fst]; [|now apply wf_new]. apply (wf_set ns0 td (y_stream y) (fst s) v); [exact W|exact E|]. now apply extract_payload_td in Ee.
Qed.
Lemma find_wf ts main ts' : wf ts -> wmv_find ts main = Ok ts' -> wf ts'.
Proof.
  intros W H. unfold wmv_find in H. bindinv H. apply ok_inj in H. subst ts'. unfold asf_run in E. apply (loop_inv (fun s => wf (fst (fst s)))) in E; [exact E| |exact W]. clear. intros s o r W H. unfold find_step in H. destruct (guid_is _ _); [|apply ok_inj in H; now subst].
  bindinv H. bindinv H. bindinv H. apply ok_inj in H. subst r. cbn [fst]. apply (packets_inv (fun s => wf (fst (fst s)))) in E1; [exact E1| |exact W]. clear. intros s off d k r W H. unfold find_packet in H. bindinv H. apply ok_inj in H. subst r. cbn [fst]. now apply find_pays_wf in E.
Qed.
Lemma extract_wf ts main ts' : wf ts -> wmv_extract ts main = Ok ts' -> wf ts'.
Proof.
  intros W H. unfold wmv_extract in H. bindinv H. apply ok_inj in H. subst ts'. unfold asf_run in E. apply (loop_inv (fun s => wf (fst s))) in E; [exact E| |exact W]. clear. intros s o r W H. unfold extract_step in H. destruct (guid_is _ _); [|apply ok_inj in H; now subst].
  bindinv H. bindinv H. bindinv H. apply ok_inj in H. subst r. cbn [fst]. apply (packets_inv (fun s => wf (fst s))) in E1; [exact E1| |exact W]. clear. intros s off d k r W H. unfold extract_packet in H. bindinv H. apply ok_inj in H. subst r. cbn [fst]. now apply extract_pays_wf in E.
Qed.
End Sound.
Theorem wmv_sound ap name big offset no_stored a srs main out :
  wmv_ok a -> wmv_srs ap name big offset (file_of a) = Ok srs -> wmv_restore no_stored srs main = Ok (Rebuilt out) ->
  crc32 out = crc32 (file_of a) /\ exists xs, Forall2 shaped (a_packets a) xs /\ out = objs_bytes (a_before a) ++ data_head a ++ concat xs ++ objs_bytes (a_after a).
Proof.
  intros H E R. destruct (load_is ap name big offset a srs H E) as (ns & fd & x & ys & Hn & Ne & L & Cf & -> & A). unfold wmv_restore, srs_rebuild, wmv_load_srs in R. rewrite L in R. cbn [bind orb l_file l_tracks] in R.
  set (td := td0 a big offset ns).
  assert (W0 : wf ns td (table (loaded big offset a) ns)).
  { exists (fun n => if in_dec N.eq_dec n ns then loaded big offset a n else new_track n), ns. split; [apply table_ext; intros n I; now destruct (in_dec N.eq_dec n ns)|]. split; [exact (proj1 Hn)|]. split; [intros n I; now destruct (in_dec N.eq_dec n ns)|]. split; [auto|].
    intros n. unfold td, td0. now destruct (in_dec N.eq_dec n ns). }
  bindinv R. rename v into ts1. assert (W1 : wf ns td ts1) by (destruct (_ || _); [now apply (find_wf ns td _ main _ W0)|apply ok_inj in E0; now subst ts1]).
  destruct (_ && _); [discriminate|]. bindinv R. rename v into ts2. pose proof (extract_wf ns td _ _ _ W1 E1) as (g & ns2 & -> & Nd & New & Sub & T).
  destruct (existsb _ (table g ns2)) eqn:Nx; [discriminate|]. bindinv R.
  destruct H as (psize & Ok_ & Nd0 & Da & Apart). destruct (rebuild_is a psize Ok_ Apart ns2 (fun n Hs => Sub n (has_in a ns Hn n Hs)) x ys g _ _ A L) as [Eb|(Eb & _)]; [|rewrite Eb in E2; discriminate E2].
  rewrite Eb in E2. apply ok_inj in E2. subst v. cbn [fst snd] in R. destruct (_ =? _) eqn:Cr; [|discriminate]. apply N.eqb_eq in Cr. apply ok_inj in R. injection R as <-. split; [congruence|]. exists (built (a_packets a) (fun n => fl (t_file (g n)))). split; [|reflexivity].
  apply built_shaped. fold (pieces_of a). intros n. destruct (has_dec a n) as [Hs|Hs]; [|rewrite (no_data n _ Hs); cbn [lenN]; lia]. pose proof (has_in a ns Hn n Hs) as I. assert (X : not_extracted (g n) = false).
  { apply not_true_is_false. intros X. assert (existsb (fun t => not_extracted (snd t)) (table g ns2) = true); [|congruence]. apply existsb_exists. exists (n, g n). split; [|exact X]. unfold table. apply in_map_iff. exists n. split; [reflexivity|now apply Sub]. }
  unfold not_extracted in X. rewrite T in X. unfold td in X. rewrite (td0_in a big offset ns n I) in X. change (td_length (stored big offset a n)) with (lenN (data_of n (pieces_of a))) in X. change (td_signature (stored big offset a n)) with (takeN 256 (data_of n (pieces_of a))) in X.
  apply andb_false_iff in X as [X|X]; [|destruct (t_file (g n)); [cbn [fl]; now apply N.ltb_ge in X|discriminate X]]. apply negb_false_iff, beqb_eq in X. apply (f_equal lenN) in X. rewrite lenN_takeN in X. change (lenN (@nil byte)) with 0 in X. lia.
Qed.

(** ** Creating an SRS *)
Lemma sum_piece ns p : NoDup ns -> In (p_stream p) ns -> fold_right (fun k s => lenN (data_of k [p]) + s) 0 ns = lenN (p_data p).
Proof.
  intros Nd. induction Nd as [|k ns Hk Nd IH]; intros Hn; [destruct Hn|]. cbn [fold_right]. rewrite data_one. destruct (N.eqb_spec (p_stream p) k) as [E|Nk].
  - rewrite sum_zero; [lia|]. intros q Hq. rewrite data_one. destruct (N.eqb_spec (p_stream p) q) as [E'|]; [congruence|reflexivity].
  - destruct Hn as [Hn|Hn]; [congruence|]. specialize (IH Hn). cbn [lenN]. exact IH.
Qed.
Lemma sum_datas ns l : NoDup ns -> (forall n, has_stream n l -> In n ns) -> fold_right (fun n s => lenN (data_of n l) + s) 0 ns = datas l.
Proof.
  intros Nd. induction l as [|p l IH]; intros H; [now rewrite sum_zero|]. rewrite datas_cons, <- IH by (intros n X; apply H; apply (has_app n [p] l); now right).
  rewrite (sum_ext _ (fun n => lenN (data_of n [p]) + lenN (data_of n l))) by (intros n _; change (p :: l) with ([p] ++ l); now rewrite data_app, lenN_app). rewrite sum_add. f_equal. apply sum_piece; [exact Nd|]. apply H. apply (has_app _ [p] l). left. now apply has_one.
Qed.
Lemma datas_app a b : datas (a ++ b) = datas a + datas b. Proof. unfold datas. now rewrite map_app, concat_app, lenN_app. Qed.
Lemma bares_len ks : lenN (bares ks) + datas (flat_map pk_pieces ks) + lenN (pads ks) = lenN (packets_bytes ks).
Proof.
  induction ks as [|k ks IH]; [reflexivity|]. rewrite bares_cons, packets_cons, pads_cons, !lenN_app, pk_bytes_len, <- IH. cbn [flat_map]. rewrite datas_app. unfold pk_bare. rewrite lenN_app. unfold heads. lia.
Qed.
Lemma asf_object_ok g d : lenN g = 16 -> lenN d + 24 < 2 ^ 64 -> exists y, asf_object g d = Ok y /\ lenN y = 24 + lenN d.
Proof.
  intros L H. unfold asf_object, pack. replace (lenN d + 24 <? 2 ^ (8 * N.of_nat 8)) with true by (change (2 ^ (8 * N.of_nat 8)) with (2 ^ 64); lia). cbn [bind]. eexists. split; [reflexivity|]. rewrite !lenN_app, lenN_le, L. lia.
Qed.
Theorem wmv_creates ap name base (big : bool) offset a an n :
  wmv_ok a -> (exists k, is_track k a) -> (forall k, is_track k a -> offset k < 2 ^ 64 /\ lenN (data_of k (pieces_of a)) < (if big then 2 ^ 64 else 2 ^ 32)) ->
  utf8_enc ap = Some an -> lenN an < 2 ^ 16 -> after_slash name base -> utf8_enc base = Some n -> lenN n < 2 ^ 16 -> lenN (file_of a) < 2 ^ 64 ->
  exists srs ns, wmv_srs ap name big offset (file_of a) = Ok srs /\ NoDup ns /\ (forall k, In k ns <-> is_track k a) /\
  lenN srs + fold_right (fun k s => lenN (data_of k (pieces_of a)) + s) 0 ns <= lenN (file_of a) + (66 + lenN an + lenN n + 302 * lenN ns).
Proof.
  intros H (k0 & Hk0) Hd Ha La Hb En Ln L64. destruct (srs_form ap name big offset a H) as (ns & Hn & C1). assert (Ne : ns <> []) by (intros ->; apply (proj2 Hn) in Hk0; destruct Hk0).
  destruct H as (psize & Ok_ & _ & _ & _). assert (Ht : forall k, In k ns <-> is_track k a) by exact (proj2 Hn).
  assert (Lf0 : lenN (file_of a) = lenN (objs_bytes (a_before a)) + 50 + lenN (packets_bytes (a_packets a)) + lenN (objs_bytes (a_after a))) by (unfold file_of; rewrite dh_is, !lenN_app, (dh_len a psize Ok_); lia).
  pose proof (bares_len (a_packets a)) as Lb. fold (pieces_of a) in Lb.
  assert (K : exists s, srs_objects ap (fd_of name (file_of a)) (map (stored big offset a) ns) (pads (a_packets a)) = Ok s /\ lenN s <= 66 + lenN an + lenN n + 302 * lenN ns + lenN (pads (a_packets a))).
  { unfold srs_objects. set (fd := fd_of name (file_of a)). rewrite (file_accepts ap fd base an n Ha La Hb En Ln eq_refl L64). cbn [bind].
    assert (Lf : lenN (file_layout (fd_flags fd) an n (fd_size fd) (fd_crc32 fd mod 2 ^ 32)) = 18 + lenN an + lenN n).
    { unfold file_layout. rewrite !lenN_app, !lenN_le. change (N.of_nat 4) with 4. change (N.of_nat 2) with 2. change (N.of_nat 8) with 8. lia. }
    destruct (asf_object_ok SRS_FILE (file_layout (fd_flags fd) an n (fd_size fd) (fd_crc32 fd mod 2 ^ 32)) eq_refl) as (xf & -> & Lx); [rewrite Lf; change (2 ^ 16) with 65536 in *; change (2 ^ 64) with 18446744073709551616; lia|]. cbn [bind]. rewrite Lf in Lx.
    assert (Q : exists l, mapR (fun t => do d <- serialize_track t; asf_object SRS_TRACK d) (map (stored big offset a) ns) = Ok l /\ lenN (concat l) <= 302 * lenN ns).
    { assert (Fn : forall k, In k ns -> k < 128 /\ offset k < 2 ^ 64 /\ lenN (data_of k (pieces_of a)) < (if big then 2 ^ 64 else 2 ^ 32)).
      { intros k Hk. apply Ht in Hk. split; [exact (track_lt a psize k Ok_ Hk)|now apply Hd]. }
      clear -Fn. induction ns as [|k ns IH]; [exists []; split; [reflexivity|cbn; lia]|]. destruct IH as (l & El & Ll); [intros q Hq; apply Fn; now right|]. destruct (Fn k (or_introl eq_refl)) as (Hk & Ho & Hl). cbn [map mapR].
      destruct (track_accepts (stored big offset a k)) as (y & -> & Ly).
      - destruct big; reflexivity.
      - change (td_number (stored big offset a k)) with k. change (2 ^ 32) with 4294967296. lia.
      - replace (has (td_flags (stored big offset a k)) 4) with big by (destruct big; reflexivity). exact Hl.
      - exact Ho.
      - change (td_signature (stored big offset a k)) with (takeN 256 (data_of k (pieces_of a))). rewrite lenN_takeN. change (2 ^ 16) with 65536. lia.
      - cbn [bind]. replace (has (td_flags (stored big offset a k)) 4) with big in Ly by (destruct big; reflexivity). change (td_signature (stored big offset a k)) with (takeN 256 (data_of k (pieces_of a))) in Ly. change (td_number (stored big offset a k)) with k in Ly.
        replace (2 ^ 16 <=? k) with false in Ly by (symmetry; apply N.leb_gt; change (2 ^ 16) with 65536; lia). pose proof (lenN_takeN 256 (data_of k (pieces_of a))) as Lt.
        destruct (asf_object_ok SRS_TRACK y eq_refl) as (z & -> & Lz); [rewrite Ly, Lt; change (2 ^ 64) with 18446744073709551616; destruct big; lia|]. cbn [bind]. rewrite El. cbn [bind]. eexists. split; [reflexivity|].
        cbn [concat]. rewrite !lenN_app, lenN_cons. destruct big; lia. }
    destruct Q as (l & -> & Ll). cbn [bind].
    assert (P : exists p, (if all_zero (pads (a_packets a)) then Ok [] else asf_object SRS_PADDING (pads (a_packets a))) = Ok p /\ lenN p <= 24 + lenN (pads (a_packets a))).
    { destruct (all_zero _); [exists []; split; [reflexivity|cbn [lenN]; lia]|]. destruct (asf_object_ok SRS_PADDING (pads (a_packets a)) eq_refl) as (p & -> & Lp); [lia|]. exists p. split; [reflexivity|lia]. }
    destruct P as (p & -> & Lp). cbn [bind]. eexists. split; [reflexivity|]. rewrite !lenN_app. lia. }
  destruct K as (s & Sc & Ls). exists (srs_file a s), ns. split; [rewrite C1; destruct ns; [contradiction|]; rewrite Sc; reflexivity|]. split; [exact (proj1 Hn)|]. split; [exact Ht|].
  rewrite (sum_datas ns (pieces_of a) (proj1 Hn)) by (intros k Hk; apply Ht; now right). unfold srs_file. rewrite !lenN_app, (dh_len a psize Ok_), Lf0. lia.
Qed.
