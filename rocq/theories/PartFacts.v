(** PartFacts: reconstructing one volume. *)
From Verif Require Import Base BaseFacts Path PathSpec PathFacts Crc Rar RarSpec ReadSpec SrrSpec RecovSpec
  RecovFacts FsSpec SetSpec PartSpec Srr FsFacts RarFacts ReadFacts ReadAllFacts SrrFacts EditFacts RebuildFacts CreateFacts.

Lemma ends_with_spec t suf : ends_with t suf = true <-> exists q, t = q ++ suf.
Proof.
  unfold ends_with. assert (S : forall p t, starts_with N.eqb p t = true <-> exists q, t = p ++ q).
  { clear. induction p as [|x p IH]; intros t; cbn [starts_with]; [split; [now exists t|reflexivity]|]. destruct t as [|y t]; [split; [discriminate|intros [q H]; discriminate]|].
    rewrite andb_true_iff, N.eqb_eq, IH. split; [intros [-> [q ->]]; now exists q|intros [q H]; injection H as -> ->; eauto]. }
  rewrite S. split; intros [q H].
  - exists (rev q). rewrite <- (rev_involutive t), H, rev_app_distr, rev_involutive. reflexivity.
  - exists (rev q). rewrite H, rev_app_distr. reflexivity.
Qed.
Lemma MARKER_head_ok : head_ok MARKER.
Proof. split; [repeat split; reflexivity|]. cbn. split; [intros H; repeat (destruct H as [H|H]; [discriminate|]); exact H|]. split; [reflexivity|]. split; discriminate. Qed.
Lemma set_fs_id s : set_fs s (s_fs s) = s.
Proof. now destruct s. Qed.

Section Part.
Variables (P : rparams) (srr : bytes) (f0 : fs).
Hypotheses (Hpart : p_part P <> []) (Hstar : last_is 42 (p_part P) = false).
Notation disk := (disk P f0).
Lemma partial : is_partial P = true.
Proof. unfold is_partial. apply negb_true_iff, teqb_neq. exact Hpart. Qed.

Definition pstate (s : rstate) (cur : option (text * N)) : Prop :=
  kept fs_get f0 (s_fs s) /\ s_pset s = false /\ s_skip_off s = run_size cur /\ s_source s = option_map fst cur.

(** ** Skipped volumes *)
Definition head_run (cur : option (text * N)) (hd : rhead) : option (text * N) :=
  match hd with HFile h k => match cur with
    | Some (n, j) => if list_eq_dec N.eq_dec n (h_text h) then Some (n, j + k) else Some (h_text h, k)
    | None => Some (h_text h, k) end
  | _ => cur end.
Lemma skip_head s cur pos hd : s_skip s = true -> head_ok hd -> pstate s cur ->
  exists s', rstep P srr s (sblk pos (SHead hd)) = (s', Continue) /\ s_fs s' = s_fs s /\ s_rar_name s' = s_rar_name s /\ s_skip s' = true /\ pstate s' (head_run cur hd).
Proof.
  intros Hsk [_ Hok] (K & A & B & C). unfold rstep. rewrite Hsk. cbn [sblk b_type s_ty b_kind s_kind b_flags b_raw b_hsize].
  destruct hd as [h k|h mark rs ds pk|crc fl ver rs ds pk extra|h d|crc ty fl body d]; cbn [head_ty head_kind head_run].
  - change (116 =? T_SrrHeader) with false. change (116 =? T_SrrStored) with false. change (116 =? T_SrrRarFile) with false. change (116 =? T_RarOldRec) with false. cbn [andb].
    change (is_recovery _) with (@Ok (option (N*N)) None). cbn iota. change (116 =? T_RarFile) with true. cbn iota. cbn [file_info_of f_name f_packed].
    eexists. split; [reflexivity|]. cbn [set_source set_off s_fs s_rar_name s_skip]. split; [reflexivity|]. split; [reflexivity|]. split; [exact Hsk|].
    split; [exact K|]. split; [exact A|]. cbn [set_source set_off s_skip_off s_source]. rewrite C, B. destruct cur as [[n j]|]; cbn [option_map fst run_size]; [|split; reflexivity].
    destruct (list_eq_dec N.eq_dec n (h_text h)) as [->|Hn]; [rewrite teqb_refl|rewrite (proj2 (teqb_neq n (h_text h)) Hn)]; split; reflexivity.
  - exists s. change (is_recovery _) with (@Ok (option (N*N)) (Some (rs, ds))). split; [reflexivity|]. repeat split; assumption.
  - exists s. split; [reflexivity|]. repeat split; assumption.
  - exists s. change (is_recovery _) with (@Ok (option (N*N)) None). split; [reflexivity|]. repeat split; assumption.
  - destruct Hok as (Hty & _). cbn [In] in Hty.
    assert (R : is_recovery (sblk pos (SHead (HBlock crc ty fl body d))) = Ok None).
    { unfold is_recovery. cbn [sblk b_kind s_kind head_kind b_type s_ty head_ty]. unfold T_RarNewSub, T_RarOldRec. rewrite (proj2 (N.eqb_neq ty 122)), (proj2 (N.eqb_neq ty 120)) by lia.
      destruct body; [reflexivity|]. destruct (ty =? 115); [reflexivity|]. destruct (ty =? 123); reflexivity. }
    rewrite R. unfold T_SrrHeader, T_SrrStored, T_SrrRarFile, T_RarOldRec, T_RarFile, T_SrrOso, T_SrrPadding.
    rewrite (proj2 (N.eqb_neq ty 105)), (proj2 (N.eqb_neq ty 106)), (proj2 (N.eqb_neq ty 113)), (proj2 (N.eqb_neq ty 120)), (proj2 (N.eqb_neq ty 116)), (proj2 (N.eqb_neq ty 107)), (proj2 (N.eqb_neq ty 108)) by lia.
    cbn [andb]. match goal with |- context [if ?c then _ else _] => destruct c end; eexists; (split; [reflexivity|]); repeat split; assumption.
Qed.
Lemma skip_heads hs : forall pos s cur, s_skip s = true -> Forall head_ok hs -> pstate s cur ->
  exists s', rloop P srr s (sblks pos (map SHead hs)) = (s', Continue) /\ s_fs s' = s_fs s /\ s_rar_name s' = s_rar_name s /\ s_skip s' = true /\ pstate s' (fold_left head_run hs cur).
Proof.
  induction hs as [|hd hs IH]; intros pos s cur Hsk Hok Hp; cbn [map sblks rloop fold_left].
  - exists s. auto.
  - apply Forall_cons_iff in Hok as [H1 Hok]. destruct (skip_head s cur pos hd Hsk H1 Hp) as (s1 & E1 & F1 & N1 & S1 & P1). rewrite E1.
    destruct (IH (pos + lenN (ser_sitem (SHead hd))) s1 _ S1 Hok P1) as (s2 & E2 & F2 & N2 & S2 & P2). exists s2. split; [exact E2|]. split; [congruence|]. split; [congruence|]. auto.
Qed.
Lemma run_pieces l : forall cur, Forall item_ok l -> fold_left head_run (map fst l) cur = fold_left run_step (concat (map piece_of l)) cur.
Proof.
  induction l as [|[hd d] l IH]; intros cur H; [reflexivity|]. apply Forall_cons_iff in H as [[_ Hl] H]. cbn [map fold_left concat]. rewrite IH by exact H.
  rewrite fold_left_app. f_equal. destruct hd; try reflexivity. cbn [fst snd head_packed] in Hl. subst packed. reflexivity.
Qed.
Lemma pad_skip s pos c f d : s_skip s = true -> rstep P srr s (sblk pos (SPad c f d [])) = (s, Continue).
Proof. intros H. unfold rstep. change (is_recovery _) with (@Ok (option (N*N)) None). rewrite H. reflexivity. Qed.

Lemma skip_volume s cur pos n v : pstate s cur -> ends_with n (p_part P) = false -> Forall item_ok (v_items v) ->
  exists s', rloop P srr s (sblks pos (vol_items n v)) = (s', Continue) /\ s_fs s' = s_fs s /\ s_rar_name s' = s_rar_name s /\ pstate s' (fold_left run_step (pieces v) cur).
Proof.
  intros (K & A & B & C) Hn Hok.
  set (s0 := set_skip s true (s_pset s)).
  assert (E0 : rstep P srr s (sblk pos (rar_item n)) = (s0, Continue)).
  { unfold rstep. cbn [sblk rar_item b_type s_ty b_kind s_kind b_flags s_flags].
    change (113 =? T_SrrHeader) with false. change (113 =? T_SrrStored) with false. change (113 =? T_SrrRarFile) with true. cbn iota.
    rewrite partial, Hn, Hstar. cbn [andb negb]. rewrite andb_false_r. reflexivity. }
  assert (P0 : pstate s0 cur) by (split; [exact K|split; [exact A|split; [exact B|exact C]]]).
  assert (Ev : vol_items n v = rar_item n :: map SHead (MARKER :: map fst (v_items v)) ++ pad_item (v_pad v)).
  { unfold vol_items. rewrite map_cons, map_map. reflexivity. }
  rewrite Ev. change (sblks pos (?x :: ?y)) with (sblk pos x :: sblks (pos + lenN (ser_sitem x)) y).
  change (rloop P srr s (?x :: ?y)) with (match rstep P srr s x with (s, Continue) => rloop P srr s y | r => r end). rewrite E0.
  assert (Hm : Forall head_ok (MARKER :: map fst (v_items v))).
  { constructor; [exact MARKER_head_ok|]. apply Forall_map. eapply Forall_impl; [|exact Hok]. intros i [H _]. exact H. }
  rewrite sblks_app, rloop_app.
  destruct (skip_heads (MARKER :: map fst (v_items v)) (pos + lenN (ser_sitem (rar_item n))) s0 cur eq_refl Hm P0) as (s1 & E1 & F1 & N1 & S1 & P1).
  rewrite E1. exists s1. split; [|split; [exact F1|split; [exact N1|]]].
  - unfold pad_item. destruct (v_pad v); [reflexivity|]. cbn [sblks rloop]. rewrite pad_skip by exact S1. reflexivity.
  - cbn [fold_left] in P1. change (head_run cur MARKER) with cur in P1. unfold pieces. rewrite run_pieces in P1 by exact Hok. exact P1.
Qed.

(** ** The selected volume *)
Record psel (s : rstate) (p : text) (sofar : bytes) (off : N) : Prop := mkS {
  q_v : wvol f0 s p sofar; q_set : s_pset s = false; q_off : s_skip_off s = off;
  q_cur : exists cur, s_skip_off s = run_size cur /\ s_source s = option_map fst cur }.
Lemma psel_write s p sofar off d : psel s p sofar off ->
  exists s', vol_write s d = (s', Continue) /\ s' = set_fs s (s_fs s') /\ psel s' p (sofar ++ d) off /\ same_but p s s'.
Proof.
  intros [V A B C]. destruct (wvol_write f0 s p sofar d V) as (s' & E & Es & V' & Bt). exists s'. split; [exact E|]. split; [exact Es|]. split; [|exact Bt].
  rewrite Es in *. constructor; assumption.
Qed.
Lemma sel_file s p sofar off pos h data :
  psel s p sofar off -> h_method h = 0x30 -> found_at disk off (h, data) ->
  exists s', rstep P srr s (hblk pos (HFile h (lenN data))) = (s', Continue) /\
    psel s' p (sofar ++ ser_item (HFile h (lenN data), data)) off /\ same_but p s s'.
Proof.
  intros W Hm [Hd (c & Hc & Ht)]. cbn [fst snd] in Hd, Hc, Ht.
  unfold rstep. cbn [hblk sblk b_type s_ty head_ty b_kind s_kind head_kind b_raw s_raw b_flags s_flags head_flags].
  change (116 =? T_SrrHeader) with false. change (116 =? T_SrrStored) with false.
  change (116 =? T_SrrRarFile) with false. change (116 =? T_RarOldRec) with false. cbn [andb].
  assert (R : is_recovery (hblk pos (HFile h (lenN data))) = Ok None) by reflexivity. rewrite R. clear R.
  cbn iota. change (116 =? T_RarFile) with true. cbn iota. rewrite (w_skip _ _ _ _ (q_v _ _ _ _ W)).
  destruct (psel_write _ _ _ _ (ser_sitem (SHead (HFile h (lenN data)))) W) as (s1 & -> & _ & W1 & B1).
  rewrite partial, (q_set _ _ _ _ W1). cbn [andb negb]. rewrite orb_true_r. cbn [file_info_of f_name f_packed].
  assert (Ho : open_source P s1 (h_flags h) (file_info_of h (lenN data)) = Ok (SFile c c)).
  { unfold open_source, content_of, is_dir, F_DIRECTORY in *. rewrite Hd in *. destruct Hc as (q & Hq & Hdk & Hl). unfold locate_file. cbn [file_info_of f_name f_unpacked f_method].
    apply rar_os_file_name_spec in Hq as Hq'. rewrite Hq'. cbn [bind].
    destruct Hq as (cs & _ & Hb). rewrite (pjoin_folder _ _ _ Hb).
    rewrite (w_kept _ _ _ _ (q_v _ _ _ _ W1) _ _ Hdk).
    assert (Hs : negb (lenN c =? h_unpacked h) && negb (size_unknown (h_unpacked h)) = false).
    { unfold size_unknown. destruct Hl as [->|[->| ->]]; [now rewrite N.eqb_refl|apply andb_false_r|apply andb_false_r]. }
    rewrite Hs, Hm. reflexivity. }
  rewrite Ho. cbn [set_source s_src s_pset s_skip_off]. rewrite (q_set _ _ _ _ W1). cbn [andb negb src_seek]. rewrite (q_off _ _ _ _ W1).
  destruct (repack_loop _ _ _ _ _ _) as [[[w src'] rc] fc] eqn:E.
  assert (Hlen : lenN data <= lenN (dropN off c)) by (rewrite <- Ht, lenN_takeN; lia).
  apply (repack_loop_spec _ _ _ _ _ _ (dropN off c)) in E; [|reflexivity|exact Hlen|apply fuel_enough].
  destruct E as [-> _]. rewrite Ht.
  set (s2 := set_source s1 (Some (h_text h)) (Some (SFile c c)) 0).
  assert (W2 : psel s2 p (sofar ++ ser_sitem (SHead (HFile h (lenN data)))) off).
  { destruct W1 as [[A B C D E F] G H I]. constructor; [constructor; assumption|exact G|exact H|]. exists (Some (h_text h, s_skip_off s1)). split; reflexivity. }
  destruct (psel_write _ _ _ _ data W2) as (s3 & E3 & Es3 & W3 & B3). fold s2. rewrite E3.
  eexists. split; [reflexivity|]. split.
  - destruct W3 as [[A B C D E F] G H I]. constructor; [constructor; try assumption|exact G|exact H|].
    + etransitivity; [exact C|]. f_equal. unfold ser_item. cbn [fst snd]. symmetry. apply app_assoc.
    + exact I.
  - destruct B1 as [X1 X2], B3 as [Y1 Y2]. split; [cbn; rewrite Y1; exact X1|]. intros q Hq. cbn. rewrite Y2 by exact Hq. now apply X2.
Qed.
Lemma sel_item s p sofar off pos i :
  psel s p sofar off -> sofar <> [] -> item_ok i -> known_type (fst i) -> recov_right sofar i -> Forall (found_at disk off) (piece_of i) ->
  exists s', rstep P srr s (hblk pos (fst i)) = (s', Continue) /\ psel s' p (sofar ++ ser_item i) off /\ same_but p s s'.
Proof.
  intros W Hne Hok Hk Hr Hs.
  assert (Done : piece_of i = [] -> exists s', rstep P srr s (hblk pos (fst i)) = (s', Continue) /\
    psel s' p (sofar ++ ser_item i) off /\ same_but p s s').
  { intros Hn. rewrite (step_nonfile P srr f0 s p sofar pos i (q_v _ _ _ _ W) Hne Hok Hk Hr Hn).
    destruct (psel_write _ _ _ _ (ser_item i) W) as (s' & E' & _ & W' & B'). exists s'. auto. }
  destruct i as [hd data]. destruct hd as [h pk|h mark rs ds pk|crc fl ver rs ds pk extra|h d|crc ty fl body d]; try (apply Done; reflexivity).
  destruct Hok as [_ Hlen]. cbn [fst snd head_packed] in *. subst pk. apply Forall_inv in Hs. exact (sel_file _ _ _ _ _ _ _ W Hk Hs).
Qed.
Lemma sel_items l : forall pos s p sofar off,
  psel s p sofar off -> sofar <> [] -> Forall item_ok l -> Forall (fun i => known_type (fst i)) l ->
  recovs_right sofar l -> Forall (found_at disk off) (concat (map piece_of l)) ->
  exists s', rloop P srr s (sblks pos (map (fun i => SHead (fst i)) l)) = (s', Continue) /\
    psel s' p (sofar ++ concat (map ser_item l)) off /\ same_but p s s'.
Proof.
  induction l as [|i l IH]; intros pos s p sofar off W Hne Hok Hk Hr Hs; cbn [map sblks concat rloop app] in *.
  - exists s. rewrite app_nil_r. split; [reflexivity|]. split; [exact W|]. apply same_but_refl.
  - apply Forall_cons_iff in Hok as [Hi Hok]. apply Forall_cons_iff in Hk as [Ki Hk]. destruct Hr as [Ri Hr].
    apply Forall_app in Hs as [Hs1 Hs].
    destruct (sel_item s p sofar off pos i W Hne Hi Ki Ri Hs1) as (s1 & E1 & W1 & B1).
    unfold hblk in E1. rewrite E1.
    destruct (IH (pos + lenN (ser_sitem (SHead (fst i)))) s1 p _ off W1) as (s2 & E2 & W2 & B2); auto.
    { destruct sofar; [congruence|discriminate]. }
    exists s2. rewrite app_assoc. split; [exact E2|]. split; [exact W2|]. eapply same_but_trans; eauto.
Qed.
Lemma sel_volume s cur pos n v out :
  pstate s cur -> ends_with n (p_part P) = true -> opath n (p_paths P) (p_out P) = Ok out -> s_rar_name s <> n ->
  fs_get (s_fs s) out = None -> store_volume v -> Forall (found_at disk (run_size cur)) (pieces v) ->
  exists s' cur', rloop P srr s (sblks pos (vol_items n v)) = (s', Continue) /\
    pstate s' cur' /\ fs_get (s_fs s') out = Some (ser_volume v) /\
    (forall q, q <> out -> fs_get (s_fs s') q = fs_get (s_fs s) q).
Proof.
  intros (Hkept & Hps & Hoff & Hsrc) Hend Ho Hn Hnone (Hvok & Hk & Hr) Hs. unfold vol_items. cbn [sblks rloop].
  set (s0 := set_volume (set_fs (set_skip s false (s_pset s)) (fs_set (s_fs s) out [])) n (Some out) true).
  assert (E0 : rstep P srr s (sblk pos (rar_item n)) = (s0, Continue)).
  { unfold rstep. cbn [sblk rar_item b_type s_ty b_kind s_kind b_flags s_flags].
    change (113 =? T_SrrHeader) with false. change (113 =? T_SrrStored) with false. change (113 =? T_SrrRarFile) with true.
    cbn iota. rewrite partial, Hend, Hstar. cbn [andb negb].
    replace (teqb _ n) with false by (symmetry; apply teqb_neq; exact Hn).
    cbn [andb negb]. rewrite Ho. unfold can_overwrite, isfile. cbn [set_skip s_fs].
    rewrite Hnone. reflexivity. }
  rewrite E0.
  assert (Hf0 : fs_get f0 out = None).
  { destruct (fs_get f0 out) eqn:E; [|reflexivity]. apply Hkept in E. congruence. }
  assert (W0 : psel s0 out [] (run_size cur)).
  { constructor; [constructor; try reflexivity| | |].
    - exact Hf0.
    - unfold s0. cbn [s_fs set_volume set_fs]. rewrite fs_get_set, teqb_refl. reflexivity.
    - intros q d H. unfold s0. cbn [s_fs set_volume set_fs]. rewrite fs_get_set.
      destruct (teqb out q) eqn:E; [apply teqb_eq in E; congruence|]. now apply Hkept.
    - exact Hps.
    - exact Hoff.
    - exists cur. split; [exact Hoff|exact Hsrc]. }
  assert (Em : rstep P srr s0 (sblk (pos + lenN (ser_sitem (rar_item n))) (SHead MARKER)) = vol_write s0 (ser_head MARKER)).
  { rewrite (step_plain P srr f0 _ _ _ _ _ (q_v _ _ _ _ W0)); [reflexivity|reflexivity|]. left. cbn. lia. }
  rewrite Em.
  destruct (psel_write _ _ _ _ (ser_head MARKER) W0) as (s1 & -> & _ & W1 & B1).
  cbn [app] in W1.
  rewrite sblks_app, rloop_app.
  destruct (sel_items (v_items v) (pos + lenN (ser_sitem (rar_item n)) + lenN (ser_sitem (SHead MARKER))) s1 out _ _ W1)
    as (s2 & E2 & W2 & B2); auto; [discriminate|apply Hvok|].
  rewrite E2.
  assert (Hpad : exists s3, rloop P srr s2 (sblks (pos + lenN (ser_sitem (rar_item n)) + lenN (ser_sitem (SHead MARKER)) +
       lenN (ser_srr (map (fun i => SHead (fst i)) (v_items v)))) (pad_item (v_pad v))) = (s3, Continue) /\
     psel s3 out (ser_volume v) (run_size cur) /\ same_but out s2 s3).
  { unfold ser_volume, pad_item. destruct (v_pad v) as [|x pad] eqn:Ep.
    - exists s2. rewrite app_nil_r. split; [reflexivity|]. split; [exact W2|apply same_but_refl].
    - cbn [sblks rloop]. set (po := _ + lenN (ser_srr _)).
      rewrite (step_pad P srr s2 po _ _ _ (w_skip _ _ _ _ (q_v _ _ _ _ W2))). destruct (psel_write _ _ _ _ (x :: pad) W2) as (s3 & -> & _ & W3 & B3).
      exists s3. rewrite app_assoc. auto. }
  destruct Hpad as (s3 & E3 & W3 & B3). rewrite E3.
  destruct W3 as [[A B C D E F] G H (cur' & I & J)]. exists s3, cur'.
  destruct B1 as [N1 F1], B2 as [N2 F2], B3 as [N3 F3].
  split; [reflexivity|]. split; [split; [exact F|split; [exact G|split; [exact I|exact J]]]|]. split; [exact C|].
  intros q Hq. rewrite F3, F2, F1 by exact Hq. unfold s0. cbn [s_fs set_volume set_fs]. rewrite fs_get_set.
  replace (teqb out q) with false by (symmetry; apply teqb_neq; congruence). reflexivity.
Qed.

(** ** The whole SRR file *)
Definition not_stored (q : text) (l : list sitem) : Prop :=
  p_extract P = true -> Forall (fun n => opath n (p_paths P) (p_out P) <> Ok q) (stored_names l).
Definition placeable (l : list sitem) : Prop :=
  p_extract P = true -> Forall (fun n => exists o, opath n (p_paths P) (p_out P) = Ok o) (stored_names l).
Lemma not_stored_cons q i l : not_stored q (i :: l) -> not_stored q [i] /\ not_stored q l.
Proof.
  intros H. split; intros X; specialize (H X); rewrite stored_names_cons in H; apply Forall_app in H as [A B]; [|exact B].
  rewrite stored_names_cons, app_nil_r. exact A.
Qed.
Lemma placeable_cons i l : placeable (i :: l) -> placeable [i] /\ placeable l.
Proof.
  intros H. split; intros X; specialize (H X); rewrite stored_names_cons in H; apply Forall_app in H as [A B]; [|exact B].
  rewrite stored_names_cons, app_nil_r. exact A.
Qed.
Lemma vol_stored n v l : stored_names (vol_items n v ++ l) = stored_names l.
Proof.
  unfold stored_names, vol_items. cbn [app map concat]. rewrite !map_app, !concat_app.
  rewrite map_map. assert (X : forall is : list item, concat (map (fun _ => @nil text) is) = []) by (induction is; auto).
  rewrite X. unfold pad_item. destruct (v_pad v); reflexivity.
Qed.
Lemma neutral_part s cur pos i : neutral i = true -> pstate s cur -> placeable [i] ->
  exists s', rstep P srr s (sblk pos i) = (s', Continue) /\ pstate s' cur /\ s_rar_name s' = s_rar_name s /\
    (forall q d, fs_get (s_fs s) q = Some d -> fs_get (s_fs s') q = Some d) /\
    (forall q, not_stored q [i] -> fs_get (s_fs s') q = fs_get (s_fs s) q).
Proof.
  intros Hn (Hk & A & B & C) Hst. destruct i as [c f n e|c f n d e|c f n e|c f sz h n e|c f d e|hd]; try discriminate Hn.
  - exists s. repeat split; auto.
  - unfold rstep. cbn [sblk b_type s_ty b_kind s_kind]. change (106 =? T_SrrHeader) with false.
    change (106 =? T_SrrStored) with true. cbn iota.
    destruct (p_extract P) eqn:Ex; [|exists s; repeat split; auto].
    specialize (Hst Ex). cbn in Hst. apply Forall_inv in Hst. destruct Hst as (o & Ho). rewrite Ho.
    unfold extract1, can_overwrite, isfile. destruct (fs_get (s_fs s) o) as [x|] eqn:Eo.
    + eexists. split; [reflexivity|]. cbn [negb fst set_fs s_fs s_rar_name]. repeat split; auto.
    + cbn [negb fst]. eexists. split; [reflexivity|]. cbn [set_fs s_fs s_rar_name].
      assert (K : forall q, q <> o -> fs_get (fs_set (s_fs s) o (srr_data srr (sblk pos (SStored c f n d e)))) q = fs_get (s_fs s) q).
      { intros q Hq. rewrite fs_get_set. replace (teqb o q) with false by (symmetry; apply teqb_neq; congruence). reflexivity. }
      assert (K' : forall q d', fs_get (s_fs s) q = Some d' -> fs_get (fs_set (s_fs s) o (srr_data srr (sblk pos (SStored c f n d e)))) q = Some d').
      { intros q d' H. rewrite K; [exact H|congruence]. }
      split; [|split; [reflexivity|split; [exact K'|]]].
      * split; [intros q d' H; apply K'; now apply Hk|]. split; [exact A|]. split; [exact B|exact C].
      * intros q H. apply K. specialize (H Ex). cbn in H. apply Forall_inv in H. congruence.
  - exists s. repeat split; auto.
Qed.
Definition other (nv : text * volume) : Prop := ends_with (fst nv) (p_part P) = false /\ Forall item_ok (v_items (snd nv)).
Lemma skip_all l vs : holds_volumes l vs -> forall pos s cur, pstate s cur -> Forall other vs -> placeable l ->
  exists s', rloop P srr s (sblks pos l) = (s', Continue) /\
    (forall q d, fs_get (s_fs s) q = Some d -> fs_get (s_fs s') q = Some d) /\
    (forall q, not_stored q l -> fs_get (s_fs s') q = fs_get (s_fs s) q).
Proof.
  induction 1 as [|i l vs Hn Hl IH|n v l vs Hl IH]; intros pos s cur Hs Ho Hp.
  - exists s. repeat split; auto.
  - apply placeable_cons in Hp as [Hp1 Hp].
    destruct (neutral_part s cur pos i Hn Hs Hp1) as (s1 & E1 & S1 & N1 & K1 & Q1).
    destruct (IH (pos + lenN (ser_sitem i)) s1 cur S1 Ho Hp) as (s2 & E2 & K2 & Q2).
    exists s2. cbn [sblks rloop]. rewrite E1. split; [exact E2|]. split; [auto|]. intros q Hq. apply not_stored_cons in Hq as [A B]. rewrite Q2, Q1; auto.
  - apply Forall_cons_iff in Ho as [[Ho1 Ho2] Ho]. cbn [fst snd] in *.
    destruct (skip_volume s cur pos n v Hs Ho1 Ho2) as (s1 & E1 & F1 & N1 & S1).
    destruct (IH (pos + lenN (ser_srr (vol_items n v))) s1 _ S1 Ho) as (s2 & E2 & K2 & Q2).
    { unfold placeable in *. rewrite vol_stored in Hp. exact Hp. }
    exists s2. rewrite sblks_app, rloop_app, E1. split; [exact E2|]. rewrite F1 in *. split; [exact K2|].
    intros q Hq. unfold not_stored in *. rewrite vol_stored in Hq. now apply Q2.
Qed.
Lemma part_all l vs : holds_volumes l vs -> forall a n v b out pos s cur, vs = a ++ (n, v) :: b -> pstate s cur ->
  s_rar_name s <> n -> Forall other a -> Forall other b -> placeable l ->
  ends_with n (p_part P) = true -> opath n (p_paths P) (p_out P) = Ok out -> fs_get (s_fs s) out = None -> not_stored out l ->
  store_volume v -> Forall (found_at disk (run_size (fold_left run_step (concat (map (fun nv => pieces (snd nv)) a)) cur))) (pieces v) ->
  exists s', rloop P srr s (sblks pos l) = (s', Continue) /\
    fs_get (s_fs s') out = Some (ser_volume v) /\
    (forall q, q <> out -> not_stored q l -> fs_get (s_fs s') q = fs_get (s_fs s) q).
Proof.
  induction 1 as [|i l vs Hn Hl IH|n' v' l vs Hl IH]; intros a n v b out pos s cur Hvs Hs Hrn Ha Hb Hp Hend Ho Hfree Hns Hv Hf.
  - destruct a; discriminate.
  - apply placeable_cons in Hp as [Hp1 Hp]. apply not_stored_cons in Hns as [Hns1 Hns].
    destruct (neutral_part s cur pos i Hn Hs Hp1) as (s1 & E1 & S1 & N1 & K1 & Q1).
    destruct (IH a n v b out (pos + lenN (ser_sitem i)) s1 cur Hvs S1) as (s2 & E2 & K2 & Q2); auto.
    { congruence. } { rewrite Q1; auto. }
    exists s2. cbn [sblks rloop]. rewrite E1. split; [exact E2|]. split; [exact K2|]. intros q Hq Hq'. apply not_stored_cons in Hq' as [A B]. rewrite Q2, Q1; auto.
  - destruct a as [|[n0 v0] a]; cbn [app] in Hvs; injection Hvs as E1 E2 E3; subst.
    + clear IH. cbn [map concat fold_left] in Hf.
      destruct (sel_volume s cur pos n v out Hs Hend Ho Hrn Hfree Hv Hf) as (s1 & c1 & E1 & S1 & V1 & Q1).
      unfold placeable, not_stored in *. rewrite vol_stored in *.
      destruct (skip_all l b Hl (pos + lenN (ser_srr (vol_items n v))) s1 c1 S1 Hb Hp) as (s2 & E2 & K2 & Q2).
      exists s2. rewrite sblks_app, rloop_app, E1. split; [exact E2|]. split; [now apply K2|].
      intros q Hq Hq'. rewrite Q2 by exact Hq'. now apply Q1.
    + apply Forall_cons_iff in Ha as [[Ha1 Ha2] Ha]. cbn [fst snd] in *. cbn [map concat snd] in Hf. rewrite fold_left_app in Hf.
      destruct (skip_volume s cur pos n0 v0 Hs Ha1 Ha2) as (s1 & E1 & F1 & N1 & S1).
      unfold placeable, not_stored in *. rewrite vol_stored in *.
      destruct (IH a n v b out (pos + lenN (ser_srr (vol_items n0 v0))) s1 _ eq_refl S1) as (s2 & E2 & K2 & Q2); auto.
      { congruence. } { congruence. }
      exists s2. rewrite sblks_app, rloop_app, E1. split; [exact E2|]. split; [exact K2|]. rewrite F1 in Q2. exact Q2.
Qed.
End Part.

Lemma last_is_spec x t : last_is x t = false <-> ~ exists q, t = q ++ [x].
Proof.
  unfold last_is. destruct t as [|y t] using rev_ind.
  - split; [intros _ [q H]; now destruct q|reflexivity].
  - rewrite rev_app_distr. cbn [rev app]. split.
    + intros H [q E]. apply app_inj_tail in E as [_ ->]. now rewrite N.eqb_refl in H.
    + intros H. apply N.eqb_neq. intros ->. apply H. eauto.
Qed.
Section Full.
Variables (P : rparams) (f : fs) (l : list sitem) (a b : list (text * volume)) (n out : text) (v : volume).
Notation disk := (fun p => fs_get f (in_folder (p_in P) p)).
Theorem part_thm :
  srr_ok l -> holds_volumes l (a ++ (n, v) :: b) -> p_part P <> [] -> (~ exists q, p_part P = q ++ str "*") ->
  (exists q, n = q ++ p_part P) ->
  Forall (fun nv => ~ exists q, fst nv = q ++ p_part P) (a ++ b) ->
  Forall (fun nv => Forall item_ok (v_items (snd nv))) (a ++ b) -> store_volume v ->
  target (p_paths P) (normpath (p_out P)) n out -> fs_get f out = None ->
  (p_extract P = true -> Forall (fun m => exists o, target (p_paths P) (normpath (p_out P)) m o /\ o <> out) (stored_names l)) ->
  Forall (found_at disk (run_size (last_run (concat (map (fun nv => pieces (snd nv)) a))))) (pieces v) ->
  exists s, reconstruct P (ser_srr l) f = (s, Continue) /\
    fs_get (s_fs s) out = Some (ser_volume v) /\
    (forall q, q <> out ->
       (p_extract P = true -> Forall (fun m => ~ target (p_paths P) (normpath (p_out P)) m q) (stored_names l)) ->
       fs_get (s_fs s) q = fs_get f q).
Proof.
  intros Hok Hl Hpart Hstar Hn Hoth Hitems Hv Ho Hfree Hst Hf. unfold reconstruct. rewrite read_all_srr by exact Hok.
  apply Forall_app in Hoth as [Oa Ob]. apply Forall_app in Hitems as [Ia Ib].
  assert (Other : forall vs, Forall (fun nv : text * volume => ~ exists q, fst nv = q ++ p_part P) vs -> Forall (fun nv => Forall item_ok (v_items (snd nv))) vs -> Forall (other P) vs).
  { intros vs A B. rewrite Forall_forall in *. intros nv H. split; [|now apply B]. destruct (ends_with (fst nv) (p_part P)) eqn:E; [|reflexivity].
    apply ends_with_spec in E. exfalso. now apply (A nv H). }
  assert (Hrn : s_rar_name (s_init f) <> n).
  { destruct Hn as [q ->]. cbn. intros E. symmetry in E. apply app_eq_nil in E as [_ E]. auto. }
  destruct (part_all P (ser_srr l) f Hpart (proj2 (last_is_spec _ _) Hstar) l _ Hl a n v b out 0 (s_init f) None eq_refl) as (s & E & V & Q); auto.
  - split; [|auto]. intros q d H. exact H.
  - intros X. eapply Forall_impl; [|exact (Hst X)]. intros m (o & A & _). exists o. now apply opath_spec.
  - now apply ends_with_spec.
  - now apply opath_spec.
  - intros X. eapply Forall_impl; [|exact (Hst X)]. intros m (o & A & B) C. apply opath_spec in A. congruence.
  - exists s. split; [exact E|]. split; [exact V|]. intros q Hq Hx. apply Q; [exact Hq|]. intros X. eapply Forall_impl; [|exact (Hx X)].
    intros m A B. apply A. now apply opath_spec.
Qed.
End Full.

(** ** When the offset is right *)
Section Offsets.
Variables (disk : text -> option bytes) (ns : list text).
Definition tied (cur : option (text * bytes)) (run : option (text * N)) : Prop :=
  match cur, run with
  | None, None => True
  | Some (n, r), Some (m, k) => n = m /\ (In n ns -> exists p c, rar_path n p /\ disk p = Some c /\ r = dropN k c)
  | _, _ => False
  end.
Lemma tied_step cur run h d ps : tied cur run -> supplied disk cur ((h, d) :: ps) -> (In (h_text h) ns -> is_dir h = false) ->
  exists cur', tied cur' (run_step run (h, d)) /\ supplied disk cur' ps /\
    (In (h_text h) ns -> exists p c, rar_path (h_text h) p /\ disk p = Some c /\ takeN (lenN d) (dropN (run_size (run_step run (h, d)) - lenN d) c) = d).
Proof.
  intros T H Hdir. inversion H as [|n rest h' d' ps' Hn Hps E1 E2|cur' h' d' rest ps' Hne Hc Hps E1 E2]; subst.
  - destruct run as [[m k]|]; [|contradiction]. destruct T as [<- T]. unfold run_step. cbn [fst snd].
    destruct (list_eq_dec N.eq_dec (h_text h) (h_text h)) as [_|]; [|congruence]. exists (Some (h_text h, rest)). cbn [tied run_size].
    assert (Q : forall c, d ++ rest = dropN k c -> rest = dropN (k + lenN d) c).
    { intros c E. rewrite N.add_comm. rewrite <- dropN_dropN, <- E. now rewrite dropN_app_exact. }
    split; [|split; [exact Hps|]].
    + split; [reflexivity|]. intros Hi. destruct (T Hi) as (p & c & A & B & C). exists p, c. split; [exact A|]. split; [exact B|]. now apply Q.
    + intros Hi. destruct (T Hi) as (p & c & A & B & C). exists p, c. split; [exact A|]. split; [exact B|].
      replace (k + lenN d - lenN d) with k by lia. rewrite <- C. now apply takeN_app_exact.
  - assert (R : run_step run (h, d) = Some (h_text h, lenN d)).
    { destruct run as [[m k]|]; [|reflexivity]. unfold run_step. cbn [fst snd]. destruct (list_eq_dec N.eq_dec m (h_text h)) as [->|]; [|reflexivity].
      destruct cur as [[n r]|]; [|contradiction]. destruct T as [-> _]. exfalso. now apply (Hne (h_text h) r). }
    rewrite R. exists (Some (h_text h, rest)). cbn [tied run_size].
    assert (Q : In (h_text h) ns -> exists p, rar_path (h_text h) p /\ disk p = Some (d ++ rest)).
    { intros Hi. unfold content_of in Hc. rewrite (Hdir Hi) in Hc. destruct Hc as (p & A & B & _). eauto. }
    split; [|split; [exact Hps|]].
    + split; [reflexivity|]. intros Hi. destruct (Q Hi) as (p & A & B). exists p, (d ++ rest). split; [exact A|]. split; [exact B|]. now rewrite dropN_app_exact.
    + intros Hi. destruct (Q Hi) as (p & A & B). exists p, (d ++ rest). split; [exact A|]. split; [exact B|]. rewrite N.sub_diag, dropN_0. now apply takeN_app_exact.
Qed.
Lemma tied_run a : forall cur run ps, tied cur run -> supplied disk cur (a ++ ps) -> Forall (fun hd => In (h_text (fst hd)) ns -> is_dir (fst hd) = false) a ->
  exists cur', tied cur' (fold_left run_step a run) /\ supplied disk cur' ps.
Proof.
  induction a as [|[h d] a IH]; intros cur run ps T H Hd; cbn [app fold_left] in *; [eauto|].
  apply Forall_cons_iff in Hd as [Hd1 Hd]. destruct (tied_step _ _ _ _ _ T H Hd1) as (c1 & T1 & S1 & _). eapply IH; eauto.
Qed.
Lemma found_run off v : forall cur run ps, tied cur run -> supplied disk cur (v ++ ps) -> Forall (fun o => o = off) (offsets run v) ->
  Forall (fun hd => In (h_text (fst hd)) ns /\ is_dir (fst hd) = false /\ exists c, content_of disk (fst hd) c) v ->
  Forall (found_at disk off) v.
Proof.
  induction v as [|[h d] v IH]; intros cur run ps T H Ho Hv; cbn [app offsets] in *; [constructor|].
  apply Forall_cons_iff in Hv as [(Hi & Hd & c & Hc) Hv]. apply Forall_cons_iff in Ho as [Ho1 Ho].
  cbn [fst snd] in *. destruct (tied_step _ _ _ _ _ T H (fun _ => Hd)) as (c1 & T1 & S1 & F). constructor; [|eapply IH; eauto].
  split; [exact Hd|]. exists c. split; [exact Hc|]. destruct (F Hi) as (p & c' & A & B & C). subst off.
  unfold content_of in Hc. cbn [fst snd] in *. rewrite Hd in Hc. destruct Hc as (p' & A' & B' & _).
  apply rar_os_file_name_spec in A, A'. congruence.
Qed.
End Offsets.

Definition all_of (P : rparams) : rparams :=
  mkParams (p_in P) (p_out P) (p_paths P) (p_skip_crc P) (p_empty P) (p_extract P) [].
Lemma Forall2_mid {A B} (R S : A -> B -> Prop) a : forall oa x o b ob, Forall2 S a oa -> Forall2 R (a ++ x :: b) (oa ++ o :: ob) -> R x o.
Proof.
  induction a as [|z a IH]; intros oa x o b ob H1 H2; inversion H1; subst; cbn [app] in H2; inversion H2; subst; [assumption|]. eapply IH; eauto.
Qed.
Theorem same_thm P f l a n v b oa out ob :
  srr_ok l -> holds_volumes l (a ++ (n, v) :: b) -> Forall (fun nv => store_volume (snd nv)) (a ++ (n, v) :: b) ->
  Forall2 (fun nv o => target (p_paths P) (normpath (p_out P)) (fst nv) o) a oa ->
  target (p_paths P) (normpath (p_out P)) n out ->
  Forall2 (fun nv o => target (p_paths P) (normpath (p_out P)) (fst nv) o) b ob ->
  NoDup (oa ++ out :: ob) -> Forall (fun o => fs_get f o = None) (oa ++ out :: ob) ->
  (p_extract P = true -> Forall (fun m => exists o, target (p_paths P) (normpath (p_out P)) m o /\ ~ In o (oa ++ out :: ob)) (stored_names l)) ->
  supplied (fun p => fs_get f (in_folder (p_in P) p)) None (concat (map (fun nv => pieces (snd nv)) (a ++ (n, v) :: b))) ->
  p_part P <> [] -> (~ exists q, p_part P = q ++ str "*") -> (exists q, n = q ++ p_part P) ->
  Forall (fun nv => ~ exists q, fst nv = q ++ p_part P) (a ++ b) ->
  let pa := concat (map (fun nv => pieces (snd nv)) a) in
  Forall (fun o => o = run_size (last_run pa)) (offsets (last_run pa) (pieces v)) ->
  Forall (fun hd => is_dir (fst hd) = false /\ exists c, content_of (fun p => fs_get f (in_folder (p_in P) p)) (fst hd) c) (pieces v) ->
  Forall (fun hd => In (h_text (fst hd)) (map (fun x => h_text (fst x)) (pieces v)) -> is_dir (fst hd) = false) pa ->
  exists s s', reconstruct P (ser_srr l) f = (s, Continue) /\ reconstruct (all_of P) (ser_srr l) f = (s', Continue) /\
    fs_get (s_fs s) out = fs_get (s_fs s') out /\ fs_get (s_fs s) out = Some (ser_volume v) /\
    Forall (fun o => fs_get (s_fs s) o = None) (oa ++ ob).
Proof.
  intros Hok Hl Hv Ha Hn Hb Hnd Hfree Hst Hsup Hpart Hstar Hend Hoth pa Hoff Hpc Hdir.
  assert (Hov : Forall2 (fun nv o => target (p_paths P) (normpath (p_out P)) (fst nv) o) (a ++ (n, v) :: b) (oa ++ out :: ob)) by (apply Forall2_app; [exact Ha|constructor; assumption]).
  destruct (reconstruct_volumes (all_of P) f l _ _ Hok Hl eq_refl Hv Hov Hnd Hfree Hst Hsup) as (s' & E' & V' & _).
  pose proof Hv as Hv0. apply Forall_app in Hv0 as [Hva Hvb]. apply Forall_cons_iff in Hvb as [Hvn Hvb].
  pose proof Hfree as Hf0. apply Forall_app in Hf0 as [Hfa Hfb]. apply Forall_cons_iff in Hfb as [Hfo Hfb].
  rewrite map_app, concat_app in Hsup. cbn [map concat snd] in Hsup.
  assert (Hfound : Forall (found_at (fun p => fs_get f (in_folder (p_in P) p)) (run_size (last_run pa))) (pieces v)).
  { destruct (tied_run _ (map (fun x => h_text (fst x)) (pieces v)) _ None None _ I Hsup Hdir) as (cur & T & S).
    eapply found_run; [exact T|exact S|exact Hoff|]. rewrite Forall_forall in *. intros hd Hi. destruct (Hpc hd Hi) as [X Y]. split; [|split; assumption]. apply in_map_iff. exists hd. auto. }
  assert (Items : Forall (fun nv : text * volume => Forall item_ok (v_items (snd nv))) (a ++ b)).
  { apply Forall_app. split; [eapply Forall_impl; [|exact Hva]|eapply Forall_impl; [|exact Hvb]]; intros nv ((X & _) & _); exact X. }
  destruct (part_thm P f l a b n out v Hok Hl Hpart Hstar Hend Hoth Items Hvn Hn Hfo) as (s & E & V & Q).
  { intros X. eapply Forall_impl; [|exact (Hst X)]. intros m (o & A & B). exists o. split; [exact A|]. intros ->. apply B, in_or_app. right. now left. }
  { exact Hfound. }
  assert (U : forall q, In q (oa ++ ob) -> fs_get (s_fs s) q = None).
  { intros q Hi. rewrite Q.
    - rewrite Forall_forall in Hfree. apply Hfree. apply in_app_or in Hi. apply in_or_app. cbn [In]. tauto.
    - intros ->. apply NoDup_remove_2 in Hnd. contradiction.
    - intros X. eapply Forall_impl; [|exact (Hst X)]. intros m (o & A & B) C. apply opath_spec in A, C. replace o with q in B by congruence.
      apply B. apply in_app_or in Hi. apply in_or_app. cbn [In]. tauto. }
  exists s, s'. split; [exact E|]. split; [exact E'|].
  apply (Forall2_mid (fun nv o => fs_get (s_fs s') o = Some (ser_volume (snd nv))) _ _ _ _ _ _ _ Ha) in V'. cbn [snd] in V'.
  split; [congruence|]. split; [exact V|]. now apply Forall_forall.
Qed.
