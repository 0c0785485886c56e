(** AviMore: what is rebuilt from any main file, creating SRS files, and that reading ends. *)
From Verif Require Import Base BaseFacts Crc CrcFacts SrsRec SrsRecSpec SrsRecFacts Srs SrrFacts RecovFacts StrmFacts Avi StrmSpec Mp3Spec AviSpec AviRead AviSrs AviOut AviExtract AviFind AviMain.

(** ** What is rebuilt *)
Lemma loop_inv {S} (P : S -> Prop) fuel check stop (act : S -> chunk -> result (S * option N)) f : (forall s c r, P s -> act s c = Ok r -> P (fst r)) ->
  forall pos s s', P s -> riff_loop fuel check stop act f pos s = Ok s' -> P s'.
Proof.
  intros Ha. induction fuel as [|fuel IH]; intros pos s s' Hs H; [discriminate|]. cbn [riff_loop] in H. bindinv H. destruct v as [c|]; [|apply ok_inj in H; now subst]. destruct (stop s); [apply ok_inj in H; now subst|].
  bindinv H. pose proof (Ha _ _ _ Hs E0) as P1. destruct (snd v) as [p|]; [now apply (IH p (fst v))|apply ok_inj in H; now subst].
Qed.
Section Sound.
Variables (ns0 : list N) (td : N -> track_data).
Hypothesis Td : forall n, ~ In n ns0 -> td n = t_td (new_track n).
Definition wf (ts : tracks) : Prop := exists g ns, ts = table g ns /\ NoDup ns /\ (forall n, ~ In n ns -> g n = new_track n) /\ (forall n, In n ns0 -> In n ns) /\ forall n, t_td (g n) = td n.
Lemma wf_new n ts : wf ts -> wf (with_new n ts).
Proof.
  intros (g & ns & -> & Nd & New & Sub & T). rewrite (with_new_table g ns n New). exists g, (enlists ns n). split; [reflexivity|]. split; [now apply enlists_nodup|]. split; [intros k Hk; apply New; intros X; apply Hk, enlists_in; now left|]. split; [intros k Hk; apply enlists_in; left; now apply Sub|exact T].
Qed.
Lemma wf_set n ts t t' : wf ts -> get_track n (with_new n ts) = Ok t -> t_td t' = t_td t -> wf (set_track n t' (with_new n ts)).
Proof.
  intros W G E. destruct (wf_new n ts W) as (g & ns & E' & Nd & New & Sub & T). rewrite E' in *. assert (I : In n ns) by (destruct (in_dec N.eq_dec n ns) as [I|I]; [exact I|]; destruct (get_track_new n (table g ns)) as (e & X); [now rewrite table_keys|congruence]).
  rewrite (get_table g ns n I) in G. apply ok_inj in G. subst t. rewrite (set_table g ns n t' Nd I). exists (fun k => if k =? n then t' else g k), ns. split; [reflexivity|]. split; [exact Nd|]. split; [|split; [exact Sub|]].
  - intros k Hk. destruct (N.eqb_spec k n) as [->|]; [contradiction|now apply New].
  - intros k. destruct (N.eqb_spec k n) as [->|]; [now rewrite E|apply T].
Qed.
Lemma find_chunk_td f c t check r : find_chunk f c t check = Ok r -> t_td (fst r) = t_td t.
Proof.
  unfold find_chunk. cbv zeta. destruct ((t_offset t =? 0)%Z || (lenN check <? lenN (td_signature (t_td t)))); [|destruct (t_match t <? td_length (t_td t)); intros H; apply ok_inj in H; now subst].
  destruct (negb (lenN (td_signature (t_td t)) =? 0)); [|intros H; apply ok_inj in H; now subst]. intros H. bindinv H. destruct v as ((t1, c1), data).
  assert (T1 : t_td t1 = t_td t).
  { destruct ((0 <? lenN check) && (lenN check <? lenN (td_signature (t_td t)))); [|apply ok_inj in E; now injection E as <- _ _]. destruct (starts_with Byte.eqb _ _); [apply ok_inj in E; now injection E as <- _ _|]. bindinv E. apply ok_inj in E. now injection E as <- _ _. }
  destruct c1; [|apply ok_inj in H; now subst]. destruct (find_start _ data 0) as [(p, c0)|]; apply ok_inj in H; now subst.
Qed.
Lemma find_step_wf f s c r : wf (fst (fst s)) -> find_step f s c = Ok r -> wf (fst (fst (fst r))).
Proof.
  intros W H. destruct s as ((ts, checks), done). cbn [fst snd] in W. unfold find_step in H. destruct (c_kind c).
  - apply ok_inj in H. now subst.
  - bindinv H. bindinv H. bindinv H. apply ok_inj in H. subst r. cbn [fst snd]. apply (wf_set stream ts v); [exact W|exact E|]. now apply find_chunk_td in E1.
  - bindinv H. apply ok_inj in H. now subst.
  - bindinv H. apply ok_inj in H. now subst.
Qed.
Lemma extract_step_wf f s c r : wf (fst s) -> extract_step f s c = Ok r -> wf (fst (fst r)).
Proof.
  intros W H. destruct s as (ts, done). cbn [fst snd] in W. unfold extract_step in H. destruct (c_kind c).
  - apply ok_inj in H. now subst.
  - bindinv H. destruct (_ <? _)%Z.
    + bindinv H. apply ok_inj in H. subst r. cbn [fst snd]. now apply (wf_set stream ts v).
    + bindinv H. apply ok_inj in H. subst r. cbn [fst snd]. now apply wf_new.
  - bindinv H. apply ok_inj in H. now subst.
  - bindinv H. apply ok_inj in H. now subst.
Qed.
Lemma find_wf ts main ts' : wf ts -> avi_find ts main = Ok ts' -> wf ts'.
Proof.
  intros W H. unfold avi_find in H. bindinv H. apply ok_inj in H. subst ts'. unfold riff_run in E. apply (loop_inv (fun s => wf (fst (fst s)))) in E; [exact E| |exact W]. intros s c r. apply find_step_wf.
Qed.
Lemma extract_wf ts main ts' : wf ts -> avi_extract ts main = Ok ts' -> wf ts'.
Proof.
  intros W H. unfold avi_extract in H. bindinv H. bindinv H. apply ok_inj in H. subst ts'. unfold riff_run in E0. apply (loop_inv (fun s => wf (fst s))) in E0; [exact E0| |exact W]. intros s c r. apply extract_step_wf.
Qed.
End Sound.
Lemma files_some g ns l : mapR track_file (table g ns) = Ok l -> forall n, In n ns -> t_file (g n) = Some (fl (t_file (g n))).
Proof.
  revert l. induction ns as [|k ns IH]; intros l H n Hn; [destruct Hn|]. cbn [table map mapR] in H. bindinv H. bindinv H. unfold track_file in E. cbn [snd fst] in E. destruct Hn as [->|Hn]; [destruct (t_file (g n)); [reflexivity|discriminate]|]. exact (IH v0 E0 n Hn).
Qed.
Theorem avi_sound ap name big offset no_stored its srs main out :
  avi_ok its -> avi_srs ap name big offset (file_of its) = Ok srs -> avi_restore no_stored srs main = Ok (Rebuilt out) ->
  crc32 out = crc32 (file_of its) /\ exists its', out = file_of its' /\ Forall2 same_shape its its'.
Proof.
  intros H E R. destruct (load_is ap name big offset its srs H E) as (ns & fd & x & ys & Hn & Ne & L & Cf & -> & A). unfold avi_restore, srs_rebuild in R. rewrite L in R. cbn [bind orb] in R.
  set (td := td0 its big offset ns).
  assert (W0 : wf ns td (table (loaded big offset its) ns)).
  { exists (fun n => if in_dec N.eq_dec n ns then loaded big offset its n else new_track n), ns. split; [apply table_ext; intros n I; now destruct (in_dec N.eq_dec n ns)|]. split; [exact (proj1 Hn)|]. split; [intros n I; now destruct (in_dec N.eq_dec n ns)|]. split; [auto|].
    intros n. unfold td, td0. now destruct (in_dec N.eq_dec n ns). }
  bindinv R. rename v into ts1. assert (W1 : wf ns td ts1) by (destruct (_ || _); [now apply (find_wf ns td _ main _ W0)|apply ok_inj in E0; now subst ts1]).
  destruct (_ && _); [discriminate|]. bindinv R. rename v into ts2. pose proof (extract_wf ns td _ _ _ W1 E1) as (g & ns2 & -> & Nd & New & Sub & T).
  destruct (existsb _ (table g ns2)) eqn:Nx; [discriminate|]. bindinv R.
  assert (Fs : forall n, In n ns2 -> t_file (g n) = Some (fl (t_file (g n)))) by (unfold avi_rebuild in E2; bindinv E2; exact (files_some g ns2 _ E3)).
  destruct (rebuild_is x ys its g ns2 (fun n => fl (t_file (g n))) H A Nd Fs) as (its' & Eb & Sh & _).
  - intros n Hs. apply Hn in Hs. split; [now apply Sub|]. assert (X : not_extracted (g n) = false).
    { apply not_true_is_false. intros X. assert (existsb (fun t => not_extracted (snd t)) (table g ns2) = true); [|congruence]. apply existsb_exists. exists (n, g n). split; [|exact X]. unfold table. apply in_map_iff. exists n. split; [reflexivity|now apply Sub]. }
    unfold not_extracted in X. rewrite T in X. unfold td in X. rewrite (td0_in its big offset ns n Hs), (Fs n (Sub n Hs)) in X. change (td_length (stored big offset its n)) with (lenN (data_of n its)) in X. change (td_signature (stored big offset its n)) with (takeN 256 (data_of n its)) in X.
    apply andb_false_iff in X as [X|X]; [|now apply N.ltb_ge in X]. apply negb_false_iff, beqb_eq in X. apply (f_equal lenN) in X. rewrite lenN_takeN in X. change (lenN (@nil byte)) with 0 in X. lia.
  - rewrite Eb in E2. apply ok_inj in E2. subst v. cbn [fst snd] in R. destruct (_ =? _) eqn:Cr; [|discriminate]. apply N.eqb_eq in Cr. apply ok_inj in R. injection R as <-. split; [congruence|]. now exists its'.
Qed.

(** ** Creating an SRS *)
Definition movis (its : list item) : N := lenN (filter is_list_movi its).
Lemma srs_len xs its : lenN (encs true (srs_items xs its)) = lenN (encs true its) + movis its * lenN (encs true xs).
Proof.
  unfold movis. induction its as [|i its IH]; [reflexivity|]. rewrite srs_items_cons, !encs_cons, encs_app, !lenN_app, IH. cbn [filter]. destruct (is_list_movi i); [rewrite lenN_cons; lia|]. cbn [encs map concat lenN]. lia.
Qed.
Lemma sum_ext (f g : N -> N) ns : (forall n, In n ns -> f n = g n) -> fold_right (fun n s => f n + s) 0 ns = fold_right (fun n s => g n + s) 0 ns.
Proof. induction ns as [|n ns IH]; intros H; [reflexivity|]. cbn [fold_right]. rewrite IH by (intros k Hk; apply H; now right). rewrite (H n (or_introl eq_refl)). reflexivity. Qed.
Lemma sum_add (f g : N -> N) ns : fold_right (fun n s => f n + g n + s) 0 ns = fold_right (fun n s => f n + s) 0 ns + fold_right (fun n s => g n + s) 0 ns.
Proof. induction ns as [|n ns IH]; [reflexivity|]. cbn [fold_right]. rewrite IH. lia. Qed.
Lemma sum_zero (f : N -> N) ns : (forall n, In n ns -> f n = 0) -> fold_right (fun n s => f n + s) 0 ns = 0.
Proof. induction ns as [|n ns IH]; intros H; [reflexivity|]. cbn [fold_right]. rewrite IH by (intros k Hk; apply H; now right). rewrite (H n (or_introl eq_refl)). reflexivity. Qed.
Lemma sum_piece ns cc d pad n : NoDup ns -> In n ns -> stream_no cc = Some n -> fold_right (fun k s => lenN (piece k (Chk cc d pad)) + s) 0 ns = lenN d.
Proof.
  intros Nd. induction Nd as [|k ns Hk Nd IH]; intros Hn Sn; [destruct Hn|]. cbn [fold_right piece]. rewrite Sn. destruct (N.eqb_spec n k) as [->|Nk].
  - rewrite sum_zero; [lia|]. intros q Hq. cbn [piece]. destruct (N.eqb_spec k q) as [->|]; [contradiction|reflexivity].
  - destruct Hn as [->|Hn]; [contradiction|]. specialize (IH Hn Sn). cbn [piece] in IH. rewrite Sn in IH. cbn [lenN]. exact IH.
Qed.
Lemma strip_len its ns : lists its ns -> lenN (encs true its) + fold_right (fun n s => lenN (data_of n its) + s) 0 ns = lenN (file_of its).
Proof.
  intros (Nd & Hn). assert (K : forall l, (forall n, has_stream n l -> In n ns) -> lenN (encs true l) + fold_right (fun n s => lenN (data_of n l) + s) 0 ns = lenN (file_of l)).
  { induction l as [|i l IH]; intros Hl; [cbn [encs file_of map concat lenN data_of]; rewrite sum_zero; reflexivity|]. rewrite encs_cons, file_cons, !lenN_app, <- IH by (intros n X; apply Hl, has_cons; now right).
    rewrite (sum_ext _ (fun n => lenN (piece n i) + lenN (data_of n l))) by (intros n _; now rewrite data_cons, lenN_app). rewrite sum_add.
    assert (X : lenN (enc true i) + fold_right (fun n s => lenN (piece n i) + s) 0 ns = lenN (item_bytes i)); [|lia].
    destruct i as [ty size name|cc d pad]; [cbn [enc item_bytes piece]; rewrite sum_zero by reflexivity; lia|]. cbn [enc item_bytes]. unfold streamed. destruct (stream_no cc) as [n|] eqn:Sn; cbn [andb].
    - rewrite (sum_piece ns cc d pad n Nd); [cbn [app]; rewrite !lenN_app; lia|apply Hl; apply has_cons; left; now apply has_one|exact Sn].
    - rewrite sum_zero; [lia|]. intros k _. cbn [piece]. now rewrite Sn. }
  apply K. intros n. apply Hn.
Qed.
Lemma riff_chunk_ok cc d : lenN cc = 4 -> lenN d < 2 ^ 32 -> exists y, riff_chunk cc d = Ok y /\ lenN y <= lenN d + 9.
Proof.
  intros L H. unfold riff_chunk, pack. replace (lenN d <? 2 ^ (8 * N.of_nat 4)) with true by (change (2 ^ (8 * N.of_nat 4)) with (2 ^ 32); lia). cbn [bind]. eexists. split; [reflexivity|].
  rewrite !lenN_app, lenN_le, L. destruct (_ =? 1); cbn [lenN]; lia.
Qed.
Theorem avi_creates ap name base (big : bool) offset its an n :
  avi_ok its -> (exists k, has_stream k its) -> (forall k, has_stream k its -> offset k < 2 ^ 64 /\ lenN (data_of k its) < (if big then 2 ^ 64 else 2 ^ 32)) ->
  utf8_enc ap = Some an -> lenN an < 2 ^ 16 -> after_slash name base -> utf8_enc base = Some n -> lenN n < 2 ^ 16 -> lenN (file_of its) < 2 ^ 64 ->
  exists srs ns, avi_srs ap name big offset (file_of its) = Ok srs /\ NoDup ns /\ (forall k, In k ns <-> has_stream k its) /\
  lenN srs + fold_right (fun k s => lenN (data_of k its) + s) 0 ns <= lenN (file_of its) + lenN (filter (fun i => match i with Lst ty _ name => beqb ty (bstr "LIST") && beqb name (bstr "movi") | _ => false end) its) * (27 + lenN an + lenN n + 287 * lenN ns).
Proof.
  intros H (k0 & Hk0) Hd Ha La Hb En Ln L64. destruct (srs_form ap name big offset its H) as (ns & Hn & _ & C1 & _). assert (Ne : ns <> []) by (intros ->; apply (proj2 Hn) in Hk0; destruct Hk0). specialize (C1 Ne).
  assert (K : exists s, srs_chunks ap (fd_of name (file_of its)) (map (stored big offset its) ns) = Ok s /\ lenN s <= 27 + lenN an + lenN n + 287 * lenN ns).
  { unfold srs_chunks. set (fd := fd_of name (file_of its)). rewrite (file_accepts ap fd base an n Ha La Hb En Ln eq_refl L64). cbn [bind].
    assert (Lf : lenN (file_layout (fd_flags fd) an n (fd_size fd) (fd_crc32 fd mod 2 ^ 32)) = 18 + lenN an + lenN n).
    { unfold file_layout. rewrite !lenN_app, !lenN_le. change (N.of_nat 4) with 4. change (N.of_nat 2) with 2. change (N.of_nat 8) with 8. lia. }
    destruct (riff_chunk_ok (bstr "SRSF") (file_layout (fd_flags fd) an n (fd_size fd) (fd_crc32 fd mod 2 ^ 32)) eq_refl) as (xf & -> & Lx); [rewrite Lf; change (2 ^ 16) with 65536 in *; change (2 ^ 32) with 4294967296; lia|]. cbn [bind]. rewrite Lf in Lx.
    assert (Q : exists l, mapR (fun t => do d <- serialize_track t; riff_chunk (bstr "SRST") d) (map (stored big offset its) ns) = Ok l /\ lenN (concat l) <= 287 * lenN ns).
    { assert (Fn : forall k, In k ns -> k < 100 /\ offset k < 2 ^ 64 /\ lenN (data_of k its) < (if big then 2 ^ 64 else 2 ^ 32)).
      { intros k Hk. split; [pose proof (lists_lt its ns Hn) as X; rewrite Forall_forall in X; now apply X|]. apply Hd. now apply Hn. }
      clear -Fn. induction ns as [|k ns IH]; [exists []; split; [reflexivity|cbn; lia]|]. destruct IH as (l & El & Ll); [intros q Hq; apply Fn; now right|]. destruct (Fn k (or_introl eq_refl)) as (Hk & Ho & Hl). cbn [map mapR].
      destruct (track_accepts (stored big offset its k)) as (y & -> & Ly).
      - destruct big; reflexivity.
      - change (td_number (stored big offset its k)) with k. change (2 ^ 32) with 4294967296. lia.
      - replace (has (td_flags (stored big offset its k)) 4) with big by (destruct big; reflexivity). exact Hl.
      - exact Ho.
      - change (td_signature (stored big offset its k)) with (takeN 256 (data_of k its)). rewrite lenN_takeN. change (2 ^ 16) with 65536. lia.
      - cbn [bind]. replace (has (td_flags (stored big offset its k)) 4) with big in Ly by (destruct big; reflexivity). change (td_signature (stored big offset its k)) with (takeN 256 (data_of k its)) in Ly. change (td_number (stored big offset its k)) with k in Ly.
        replace (2 ^ 16 <=? k) with false in Ly by (symmetry; apply N.leb_gt; change (2 ^ 16) with 65536; lia). pose proof (lenN_takeN 256 (data_of k its)) as Lt.
        destruct (riff_chunk_ok (bstr "SRST") y eq_refl) as (z & -> & Lz); [rewrite Ly, Lt; change (2 ^ 32) with 4294967296; destruct big; lia|]. cbn [bind]. rewrite El. cbn [bind]. eexists. split; [reflexivity|].
        cbn [concat]. rewrite !lenN_app, lenN_cons. destruct big; lia. }
    destruct Q as (l & -> & Ll). cbn [bind]. eexists. split; [reflexivity|]. rewrite lenN_app. lia. }
  destruct K as (s & Sc & Ls). pose proof (srs_chunks_is _ _ _ _ Sc) as (x & ys & _ & _ & Es & _). rewrite Es in Sc, Ls. exists (encs true (srs_items (added x ys) its)), ns. split; [now apply C1|]. split; [exact (proj1 Hn)|]. split; [exact (proj2 Hn)|].
  rewrite srs_len. pose proof (strip_len its ns Hn) as Sl. change (lenN (filter _ its)) with (movis its). assert (movis its * lenN (encs true (added x ys)) <= movis its * (27 + lenN an + lenN n + 287 * lenN ns)) by (apply N.mul_le_mono_l; exact Ls). lia.
Qed.
