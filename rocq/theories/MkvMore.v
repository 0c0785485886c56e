(** MkvMore: creating an SRS of an MKV sample. *)
From Verif Require Import Base BaseFacts Crc CrcFacts SrsRec SrsRecSpec SrsRecFacts Srs SrrFacts Ebml EbmlSpec EbmlFacts Mkv StrmSpec Mp3Spec MkvSpec MkvRead MkvSrs MkvLoad MkvOut.
From Verif Require AviMore.
Import AviMore(sum_ext, sum_add, sum_zero).

Lemma sum_frames ns b : NoDup ns -> In (k_no b) ns -> fold_right (fun k s => lenN (concat (frames_of k (Blk b))) + s) 0 ns = lenN (concat (k_frames b)).
Proof.
  intros Nd. induction Nd as [|k ns Hk Nd IH]; intros Hn; [destruct Hn|]. cbn [fold_right]. cbn [frames_of] in *. destruct (N.eqb_spec (k_no b) k) as [E|Nk].
  - rewrite sum_zero; [lia|]. intros q Hq. destruct (N.eqb_spec (k_no b) q) as [E'|_]; [|reflexivity]. congruence.
  - destruct Hn as [->|Hn]; [now destruct Nk|]. rewrite (IH Hn). reflexivity.
Qed.
Lemma strip_len ns its : NoDup ns -> (forall n, has_track n its -> In n ns) -> forall cur,
  lenN (encs true its) + lenN (concat (map snd (attached_files cur its))) + fold_right (fun n s => lenN (data_of n its) + s) 0 ns = lenN (bytes_of its).
Proof.
  intros Nd. induction its as [|i its IH]; intros Hl cur; [cbn [encs bytes_of map concat lenN data_of attached_files]; rewrite sum_zero; reflexivity|]. rewrite encs_cons, bytes_cons, !lenN_app.
  rewrite (sum_ext _ (fun n => lenN (concat (frames_of n i)) + lenN (data_of n its))) by (intros n _; now rewrite data_cons, lenN_app). rewrite sum_add.
  assert (Hl' : forall n, has_track n its -> In n ns) by (intros n X; apply Hl; change (i :: its) with ([i] ++ its); apply has_app; now right). specialize (IH Hl').
  destruct i as [id w n|id w d|b].
  - specialize (IH cur). cbn [attached_files enc item_bytes frames_of concat lenN]. rewrite (sum_zero (fun _ => 0)) by reflexivity. lia.
  - cbn [attached_files enc item_bytes frames_of concat lenN]. rewrite (sum_zero (fun _ => 0)) by reflexivity. unfold is_data. cbn [andb]. destruct (beqb id file_name) eqn:E1.
    + apply beqb_eq in E1. subst id. change (beqb file_name file_contents) with false. cbv iota. specialize (IH (Some d)). lia.
    + destruct (beqb id file_contents); [|specialize (IH cur); lia]. specialize (IH cur). cbn [map snd concat]. rewrite !lenN_app. cbn [lenN]. lia.
  - specialize (IH cur). cbn [attached_files enc item_bytes]. rewrite sum_frames; [rewrite app_nil_r, !lenN_app; lia|exact Nd|]. apply Hl. change (Blk b :: its) with ([Blk b] ++ its). apply has_app. left. now apply has_blk.
Qed.
Lemma below_len (m : N) ns : NoDup ns -> (forall n, In n ns -> n < m) -> lenN ns <= m.
Proof.
  intros Nd H. rewrite lenN_length. assert (length ns <= length (map N.of_nat (seq 0 (N.to_nat m))))%nat; [|rewrite map_length, seq_length in *; lia].
  apply NoDup_incl_length; [exact Nd|]. intros n Hn. specialize (H n Hn). apply in_map_iff. exists (N.to_nat n). split; [apply N2Nat.id|]. apply in_seq. lia.
Qed.
Lemma element_ok id d : lenN d < 2 ^ 49 -> exists y, ebml_element id d = Ok y /\ lenN y <= lenN id + 8 + lenN d.
Proof.
  intros L. destruct (make_thm (lenN d) L) as (w & M & (V & _) & _). unfold ebml_element. rewrite M. cbn [bind]. eexists. split; [reflexivity|]. rewrite !lenN_app, lenN_vint. lia.
Qed.
Theorem mkv_creates ap name base (big : bool) offset ps an n :
  mkv_ok ps -> (exists k, has_track k (all_items ps)) -> (forall w d, In (Leaf file_name w d) (all_items ps) -> exists t, utf8_enc t = Some d) ->
  (forall k, has_track k (all_items ps) -> offset k < 2 ^ 64 /\ lenN (data_of k (all_items ps)) < (if big then 2 ^ 64 else 2 ^ 32)) ->
  utf8_enc ap = Some an -> lenN an < 2 ^ 16 -> after_slash name base -> utf8_enc base = Some n -> lenN n < 2 ^ 16 -> lenN (file_of ps) < 2 ^ 64 ->
  exists srs ns, mkv_srs ap name big offset (file_of ps) = Ok srs /\ NoDup ns /\ (forall k, In k ns <-> has_track k (all_items ps)) /\
  lenN srs + fold_right (fun k s => lenN (data_of k (all_items ps)) + s) 0 ns + lenN (concat (map snd (files_of (all_items ps)))) <=
  lenN (file_of ps) + 40 + lenN an + lenN n + 16415 * lenN ns.
Proof.
  intros H (k0 & Hk0) Hu Hd Ha La Hb En Ln L64. destruct H as (F & (a & w & size & b & Ep & Hsa & Hsb) & _ & Nu & _ & N16 & _). set (its := all_items ps) in *.
  pose proof (profile_is name ps F) as P. destruct (mkv_profile name (file_of ps)) as [(fd, ts)|e] eqn:Pr.
  2:{ exfalso. destruct P as [P|(i & Hi & U)]; [now apply P|]. destruct i as [| id w' d|]; try contradiction. destruct U as (-> & U). destruct (Hu w' d Hi) as (t & Et). apply (U t). unfold decode_utf8. now rewrite (utf8_dec_enc t d Et). }
  destruct P as (-> & Nd & T). fold its in T.
  assert (Hns : forall k, In k (map fst ts) <-> has_track k its).
  { intros k. rewrite <- in_keys. specialize (T k). destruct (get N.eqb k ts) as [t|e]; [|split; [intros (x & X); discriminate X|contradiction]]. split; [intros _; apply T|intros _; now exists t]. }
  assert (Nt : ts <> []) by (intros ->; apply Hns in Hk0; destruct Hk0). rewrite (srs_eq ap name big offset ps a w size b ts F Ep Hsa Hsb Pr Nt).
  assert (Ls : lenN (map fst ts) <= 65536) by (apply below_len; [exact Nd|]; intros k Hk; apply N16; now apply Hns).
  assert (K : exists s, resample ap (fd_of name (file_of ps)) (map (stored_track big offset) ts) = Ok s /\ lenN s <= 40 + lenN an + lenN n + 16415 * lenN (map fst ts)).
  { unfold resample. set (fd := fd_of name (file_of ps)). rewrite (file_accepts ap fd base an n Ha La Hb En Ln eq_refl L64). cbn [bind].
    assert (Lf : lenN (file_layout (fd_flags fd) an n (fd_size fd) (fd_crc32 fd mod 2 ^ 32)) = 18 + lenN an + lenN n).
    { unfold file_layout. rewrite !lenN_app, !lenN_le. change (N.of_nat 4) with 4. change (N.of_nat 2) with 2. change (N.of_nat 8) with 8. lia. }
    change (2 ^ 16) with 65536 in *. destruct (element_ok RESAMPLE_FILE (file_layout (fd_flags fd) an n (fd_size fd) (fd_crc32 fd mod 2 ^ 32))) as (xf & -> & Lx); [rewrite Lf; change (2 ^ 49) with 562949953421312; lia|]. cbn [bind]. rewrite Lf in Lx. change (lenN RESAMPLE_FILE) with 2 in Lx.
    assert (Q : exists l, mapR (fun t => do d <- serialize_track t; ebml_element RESAMPLE_TRACK d) (map (stored_track big offset) ts) = Ok l /\ lenN (concat l) <= 16415 * lenN (map fst ts)).
    { assert (Fn : forall k t, In (k, t) ts -> k < 65536 /\ offset k < 2 ^ 64 /\ td_flags (m_td t) = 0 /\ td_number (m_td t) = k /\ td_length (m_td t) < (if big then 2 ^ 64 else 2 ^ 32) /\ lenN (td_signature (m_td t)) < 16384).
      { intros k t Hk. pose proof (in_get N.eqb N.eqb_eq k t ts Nd Hk) as G. specialize (T k). rewrite G in T. destruct T as (Ht & T1 & T2 & _ & T4 & (_ & _ & T5)). destruct (Hd k Ht) as (D1 & D2). rewrite T4. repeat split; try assumption. now apply N16. }
      clear -Fn. induction ts as [|(k, t) ts IH]; [exists []; split; [reflexivity|cbn; lia]|]. destruct IH as (l & El & Ll); [intros q u Hq; apply Fn; now right|]. destruct (Fn k t (or_introl eq_refl)) as (Hk & Ho & Tf & Tn & Tl & Ts). cbn [map mapR fst].
      assert (Hf : has (td_flags (stored_track big offset (k, t))) 4 = big) by (unfold stored_track; cbn [with_stored td_flags fst snd]; rewrite Tf; destruct big; reflexivity).
      destruct (track_accepts (stored_track big offset (k, t))) as (y & -> & Ly).
      - unfold stored_track. cbn [with_stored td_flags fst snd]. rewrite Tf. destruct big; reflexivity.
      - unfold stored_track. cbn [with_stored td_number fst snd]. rewrite Tn. change (2 ^ 32) with 4294967296. lia.
      - rewrite Hf. exact Tl.
      - exact Ho.
      - unfold stored_track. cbn [with_stored td_signature fst snd]. change (2 ^ 16) with 65536. lia.
      - cbn [bind]. rewrite Hf in Ly. unfold stored_track in Ly. cbn [with_stored td_signature td_number fst snd] in Ly. rewrite Tn in Ly. replace (2 ^ 16 <=? k) with false in Ly by (symmetry; apply N.leb_gt; change (2 ^ 16) with 65536; lia).
        destruct (element_ok RESAMPLE_TRACK y) as (z & -> & Lz); [rewrite Ly; change (2 ^ 49) with 562949953421312; destruct big; lia|]. cbn [bind]. rewrite El. cbn [bind]. eexists. split; [reflexivity|]. change (lenN RESAMPLE_TRACK) with 2 in Lz.
        cbn [concat]. rewrite !lenN_app, lenN_cons. destruct big; lia. }
    destruct Q as (l & -> & Ll). cbn [bind]. destruct (element_ok RESAMPLE (xf ++ concat l)) as (z & -> & Lz); [rewrite lenN_app; change (2 ^ 49) with 562949953421312; lia|]. eexists. split; [reflexivity|]. rewrite lenN_app in Lz. change (lenN RESAMPLE) with 4 in Lz. lia. }
  destruct K as (s & -> & Lk). cbn [bind]. eexists. exists (map fst ts). split; [reflexivity|]. split; [exact Nd|]. split; [exact Hns|].
  pose proof (strip_len (map fst ts) its Nd (fun k Hk => proj2 (Hns k) Hk) None) as Sl. unfold files_of. fold its. unfold file_of. fold its.
  assert (Se : lenN (encs true its) = lenN (encs true (all_items a)) + lenN (header segment w size) + lenN (encs true (all_items b))).
  { unfold its. rewrite Ep. unfold all_items. rewrite map_app, concat_app. cbn [map concat items_of]. rewrite encs_app, !lenN_app. cbn [app]. rewrite encs_cons, lenN_app. cbn [enc]. lia. }
  rewrite !lenN_app. lia.
Qed.
