(** MatchFacts: the CRC messages of reconstruct. *)
From Verif Require Import Base BaseFacts Path PathSpec PathFacts Crc CrcSpec CrcFacts Rar RarSpec ReadSpec SrrSpec FsSpec SetSpec MatchSpec
  Srr RecovFacts FsFacts ReadFacts ReadAllFacts SafeFacts RebuildFacts.

Definition crc_event (e : event) : bool := match e with ECrcVolume _ | ECrcFile _ => true | _ => false end.

Definition silent (s : rstate) : Prop := forallb (fun e => negb (crc_event e)) (s_events s) = true.

Lemma zcrc32_nil s : s < 2 ^ 32 -> zcrc32 [] s = s.
Proof. intros _. unfold zcrc32, crc_upd. cbn [fold_left]. rewrite N.lxor_assoc, N.lxor_nilpotent. apply N.lxor_0_r. Qed.
Lemma repack_crc fuel : forall todo src rc fc r w src' rc' fc',
  src_holds src r -> todo <= 65536 * N.of_nat fuel -> rc < 2 ^ 32 -> fc < 2 ^ 32 ->
  repack_loop fuel todo src false rc fc = (w, src', rc', fc') ->
  src_holds src' (dropN todo r) /\ rc' = zcrc32 (takeN todo r) rc /\ fc' = zcrc32 (takeN todo r) fc.
Proof.
  induction fuel as [|fuel IH]; intros todo src rc fc r w src' rc' fc' Hs Hf Hr Hc H; cbn [repack_loop] in H.
  - injection H as <- <- <- <-. replace todo with 0 by lia. rewrite takeN_0, dropN_0, !zcrc32_nil by assumption. auto.
  - destruct (N.eqb_spec todo 0) as [->|Hz].
    + injection H as <- <- <- <-. rewrite takeN_0, dropN_0, !zcrc32_nil by assumption. auto.
    + set (n := N.min todo 65536) in *. destruct (src_read_holds n src r Hs) as [Hb Hs'].
      destruct (src_read n src) as [buf src1]. cbn [fst snd] in Hb, Hs'.
      destruct (repack_loop fuel (todo - n) src1 false _ _) as [[[w1 src2] rc2] fc2] eqn:E.
      injection H as <- <- <- <-.
      apply (IH _ _ _ _ (dropN n r)) in E; [|exact Hs'|unfold n; lia|now apply zcrc32_lt|now apply zcrc32_lt].
      destruct E as (Hs2 & -> & ->). rewrite Hb. rewrite <- !zcrc32_app, <- takeN_add. rewrite dropN_dropN in Hs2.
      replace (n + (todo - n)) with todo by (unfold n; lia). replace (todo - n + n) with todo in Hs2 by (unfold n; lia). auto.
Qed.

Lemma no_events fl f rc fc p : forallb (fun e => negb (crc_event e)) (repack_events fl f rc fc p false) = true -> repack_events fl f rc fc p false = [].
Proof.
  unfold repack_events. destruct (negb (negb (has fl F_SPLIT_AFTER)) && negb (f_crc f =? N.land fc MASK32)); [discriminate|].
  destruct (negb (has fl F_SPLIT_AFTER) && negb (f_crc f =? N.land rc MASK32) && (f_method f =? COMPR_STORING)); [discriminate|reflexivity].
Qed.
Section Match.
Variables (P : rparams) (srr : bytes) (f0 : fs).
Hypotheses (Hpart : p_part P = []) (Hcrc : p_skip_crc P = false).
Notation disk := (disk P f0).
Definition cinv (s : rstate) (cur : option (text * bytes * bytes)) : Prop :=
  good P f0 (s_fs s) (s_rarfs s) /\ s_skip s = false /\
  match cur with
  | None => s_source s = None
  | Some (n, past, rest) => s_source s = Some n /\ (exists src, s_src s = Some src /\ src_holds src rest) /\ s_crc s = crc32 past
  end.
Definition keeps (s s' : rstate) : Prop :=
  s_skip s' = s_skip s /\ s_source s' = s_source s /\ s_src s' = s_src s /\ s_crc s' = s_crc s /\ (silent s' <-> silent s).
Lemma keeps_refl s : keeps s s.
Proof. repeat split; auto. Qed.
Lemma write_keeps s d s' : vol_write s d = (s', Continue) -> keeps s s' /\ exists p, s_rarfs s = Some p.
Proof. unfold vol_write. destruct (s_rarfs s); [|discriminate]. intros [= <-]. split; [repeat split; auto|eauto]. Qed.

(** blocks that are no files *)
Lemma other_keeps s b s' : s_skip s = false -> (forall f, b_kind b <> KFile f) -> rstep P srr s b = (s', Continue) -> keeps s s'.
Proof.
  intros Hsk Hk H. unfold rstep in H. rewrite (not_partial P Hpart) in H. cbn [andb] in H.
  destruct (b_type b =? T_SrrHeader); [injection H as <-; apply keeps_refl|].
  destruct (b_type b =? T_SrrStored).
  { destruct (p_extract P); [|injection H as <-; apply keeps_refl]. destruct (b_kind b); try discriminate.
    destruct (opath name (p_paths P) (p_out P)); [|discriminate]. injection H as <-. repeat split; auto. }
  destruct (b_type b =? T_SrrRarFile).
  { destruct (b_kind b); try discriminate.
    assert (K0 : keeps s (set_skip s false (s_pset s))) by (repeat split; auto).
    match type of H with (if ?c then _ else _) = _ => destruct c end; [|injection H as <-; exact K0].
    destruct (opath name (p_paths P) (p_out P)); [|discriminate].
    match type of H with (if ?c then _ else _) = _ => destruct c end; [|discriminate].
    injection H as <-. exact K0. }
  rewrite Hsk, andb_false_r in H. destruct (is_recovery b) as [rec|]; [|discriminate].
  assert (T : forall rec' : option (N * N), rec' = None -> (if b_type b =? T_RarFile
     then match b_kind b with KFile fi => rstep P srr s b | _ => match vol_write s (b_raw b) with (s, Continue) => (s, Raise AttributeError) | r => r end end
     else if ((T_RarMin <=? b_type b) && (b_type b <=? T_RarMax)) || ((b_type b =? 0) && (b_hsize b =? 20)) then vol_write s (b_raw b)
     else if b_type b =? T_SrrOso then (s, Continue) else if b_type b =? T_SrrPadding then vol_write s (dropN (b_hsize b) (b_raw b))
     else (add_events s [EUnknown (b_type b)], Continue)) = (s', Continue) -> keeps s s').
  { intros _ _ E. destruct (b_type b =? T_RarFile).
    - destruct (b_kind b) eqn:Ek; try (destruct (vol_write s (b_raw b)) as [s1 [| |e]]; discriminate). exfalso. now apply (Hk f).
    - match type of E with (if ?c then _ else _) = _ => destruct c end; [now apply write_keeps in E|].
      destruct (b_type b =? T_SrrOso); [injection E as <-; apply keeps_refl|].
      destruct (b_type b =? T_SrrPadding); [now apply write_keeps in E|]. injection E as <-. repeat split; auto. }
  destruct rec as [[rs ds]|].
  - destruct ((0 <? rs) && s_rr s).
    + destruct (s_rarfs s); [|discriminate]. destruct (recovery_bytes _ _ _ _); [|discriminate]. now apply write_keeps in H.
    + now apply write_keeps in H.
  - apply (T None eq_refl). destruct (b_type b =? T_RarFile); [|exact H]. destruct (b_kind b) eqn:Ek; try exact H. exfalso. now apply (Hk f).
Qed.

Lemma open_read s h k src : good P f0 (s_fs s) (s_rarfs s) -> open_source P s (h_flags h) (file_info_of h k) = Ok src ->
  exists c, src_holds src c /\ read_from disk h c.
Proof.
  intros (K & _) H. unfold open_source, read_from, is_dir, F_DIRECTORY in *. destruct (N.land (h_flags h) 224 =? 224).
  - injection H as <-. eexists. split; reflexivity.
  - unfold locate_file in H. cbn [file_info_of f_name f_unpacked f_method] in H.
    destruct (rar_os_file_name (h_text h)) as [q|e] eqn:Eq.
    + apply rar_os_file_name_spec in Eq. cbn [bind] in H. pose proof Eq as (cs & _ & Hb). rewrite (pjoin_folder _ _ _ Hb) in H.
      destruct (fs_get (s_fs s) (in_folder (p_in P) q)) as [d|] eqn:Ed.
      * destruct (negb _ && negb _); [discriminate|]. destruct (h_method h =? COMPR_STORING); [|discriminate]. injection H as <-.
        exists d. split; [reflexivity|]. exists q. split; [exact Eq|]. intros d' Hd. apply K in Hd. congruence.
      * destruct (p_empty P); [|discriminate]. injection H as <-. eexists. split; [reflexivity|]. exists q. split; [exact Eq|].
        intros d' Hd. apply K in Hd. congruence.
    + cbn [bind] in H. unfold rar_os_file_name, joinpath in Eq. destruct (existsb _ _); [injection Eq as <-|]; discriminate.
Qed.
Lemma events_right h k past part rc fc path :
  rc = crc32 (past ++ part) -> fc = crc32 part -> (repack_events (h_flags h) (file_info_of h k) rc fc path false = [] <-> crc_right h past part).
Proof.
  intros -> ->. unfold repack_events, crc_right in *. cbn [file_info_of f_crc f_method f_name].
  assert (M : forall d, N.land (crc32 d) MASK32 = crc32 d).
  { intros d. change MASK32 with (N.ones 32). rewrite N.land_ones. apply N.mod_small. apply (zcrc32_lt d 0). reflexivity. }
  rewrite !M. assert (B : has (h_flags h) F_SPLIT_AFTER = N.testbit (h_flags h) 1).
  { unfold has. change F_SPLIT_AFTER with (2 ^ 1). symmetry. destruct (N.eqb_spec (N.land (h_flags h) (2 ^ 1)) 0) as [E|E]; cbn [negb].
    - apply (f_equal (fun n => N.testbit n 1)) in E. rewrite N.land_spec, N.pow2_bits_true, andb_true_r, N.bits_0 in E. exact E.
    - destruct (N.testbit (h_flags h) 1) eqn:T; [reflexivity|]. exfalso. apply E. apply N.bits_inj. intros i. rewrite N.land_spec, N.bits_0.
      destruct (N.eq_dec i 1) as [->|Hi]; [now rewrite T|]. rewrite (N.pow2_bits_false 1 i) by congruence. apply andb_false_r. }
  rewrite B. destruct (N.testbit (h_flags h) 1); cbn [negb andb].
  - destruct (N.eqb_spec (h_fcrc h) (crc32 part)) as [->|Hne]; cbn [negb]; split; try discriminate; auto.
    + intros _. apply crc32_is.
    + intros X. exfalso. apply Hne. exact (is_crc32_unique _ _ _ X (crc32_is part)).
  - unfold COMPR_STORING. destruct (N.eqb_spec (h_method h) 48) as [Hm|Hm].
    + rewrite andb_true_r. destruct (N.eqb_spec (h_fcrc h) (crc32 (past ++ part))) as [->|Hne]; cbn [negb]; split; try discriminate; auto.
      * intros _ _. apply crc32_is.
      * intros X. exfalso. apply Hne. exact (is_crc32_unique _ _ _ (X Hm) (crc32_is _)).
    + rewrite andb_false_r. split; [intros _ X; congruence|reflexivity].
Qed.

(** file blocks *)
Lemma file_match s pos h k s' cur : cinv s cur -> rstep P srr s (hblk pos (HFile h k)) = (s', Continue) ->
  exists past rest, (cur = Some (h_text h, past, rest) \/ (past = [] /\ (forall n a r, cur = Some (n, a, r) -> h_text h <> n) /\ read_from disk h rest)) /\
    cinv s' (Some (h_text h, past ++ takeN k rest, dropN k rest)) /\ (silent s' <-> silent s /\ crc_right h past (takeN k rest)).
Proof.
  intros (G & Hsk & Hc) H. pose proof (rstep_good P f0 srr _ _ _ _ G H) as G'. unfold rstep in H.
  cbn [hblk sblk b_type s_ty head_ty b_kind s_kind head_kind b_raw s_raw b_flags s_flags head_flags] in H.
  change (116 =? T_SrrHeader) with false in H. change (116 =? T_SrrStored) with false in H.
  change (116 =? T_SrrRarFile) with false in H. change (116 =? T_RarOldRec) with false in H. cbn [andb] in H.
  assert (R : is_recovery (hblk pos (HFile h k)) = Ok None) by reflexivity. rewrite R in H. clear R.
  cbn iota in H. change (116 =? T_RarFile) with true in H. cbn iota in H. rewrite Hsk in H.
  destruct (vol_write s (ser_sitem (SHead (HFile h k)))) as [s1 [| |e]] eqn:E1; try discriminate.
  pose proof (vol_write_good P f0 _ _ _ _ G E1) as G1. apply write_keeps in E1 as [(A1 & A2 & A3 & A4 & A5) _].
  rewrite (not_partial P Hpart) in H. cbn [andb] in H. rewrite orb_false_r in H. cbn [file_info_of f_name f_packed] in H.
  assert (Go : forall s2 past rest, s_source s2 = Some (h_text h) -> s_skip s2 = false -> (silent s2 <-> silent s) ->
     (exists src, s_src s2 = Some src /\ src_holds src rest) -> s_crc s2 = crc32 past ->
     (match s_src s2 with
      | None => (s2, Raise AssertionError)
      | Some src =>
          let '(w, src, rcrc, fcrc) := repack_loop (repack_fuel k) k src (p_skip_crc P) (s_crc s2) 0 in
          match vol_write s2 w with
          | (s3, Continue) =>
             (add_events (set_source s3 (s_source s3) (Some src) rcrc)
              (repack_events (h_flags h) (file_info_of h k) rcrc fcrc
                 (match s_rarfs s3 with Some p => p | None => [] end) (p_skip_crc P)), Continue)
          | r => r
          end
      end) = (s', Continue) ->
     cinv s' (Some (h_text h, past ++ takeN k rest, dropN k rest)) /\ (silent s' <-> silent s /\ crc_right h past (takeN k rest))).
  { intros s2 past rest B1 B2 B3 (src & B4 & B5) B6 H'. rewrite B4, Hcrc in H'.
    destruct (repack_loop (repack_fuel k) k src false (s_crc s2) 0) as [[[w src'] rc] fc] eqn:E.
    assert (L0 : 0 < 2 ^ 32) by reflexivity.
    apply (repack_crc _ _ _ _ _ rest) in E; [|exact B5|apply fuel_enough|rewrite B6; apply (zcrc32_lt past 0); reflexivity|exact L0].
    destruct E as (E1 & E2 & E3). rewrite B6 in E2. unfold crc32 in E2. rewrite <- zcrc32_app in E2. fold (crc32 (past ++ takeN k rest)) in E2. fold (crc32 (takeN k rest)) in E3.
    destruct (vol_write s2 w) as [s3 [| |e]] eqn:E4; try discriminate. match type of H' with (?x, _) = _ => assert (Hx : s' = x) by congruence end; subst s'. apply write_keeps in E4 as [(C1 & C2 & C3 & C4 & C5) _].
    split.
    - split; [exact G'|]. split; [cbn; congruence|]. cbn. split; [congruence|]. split; [eauto|exact E2].
    - rewrite <- B3, <- C5, <- (events_right h k past (takeN k rest) rc fc (match s_rarfs s3 with Some p => p | None => [] end) E2 E3).
      unfold silent. cbn [add_events s_events set_source]. rewrite forallb_app, andb_true_iff. split.
      + intros [X Y]. apply no_events in X. auto.
      + intros [X Y]. rewrite Y. auto. }
  destruct (s_source s1) as [n|] eqn:Es.
  - destruct (teqb n (h_text h)) eqn:En; cbn [negb] in H.
    + apply teqb_eq in En. subst n. rewrite A2 in Es. destruct cur as [[[n past] rest]|]; [|congruence]. destruct Hc as (Hn & Hs & Hp).
      assert (n = h_text h) by congruence. subst n.
      destruct (Go s1 past rest) as [X Y]; [congruence|congruence|exact A5|rewrite A3; exact Hs|congruence|exact H|].
      exists past, rest. split; [now left|exact (conj X Y)].
    + destruct (open_source P s1 (h_flags h) (file_info_of h k)) as [src|e] eqn:Eo; [|discriminate].
      apply open_read in Eo as (c & Hh & Hr); [|exact G1].
      destruct (Go (set_source s1 (Some (h_text h)) (Some src) 0) [] c) as [X Y]; [reflexivity|exact (eq_trans A1 Hsk)|exact A5|exists src; split; [reflexivity|exact Hh]|reflexivity|exact H|].
      exists [], c. split; [right|exact (conj X Y)]. split; [reflexivity|]. split; [|exact Hr].
      intros n0 a r ->. destruct Hc as (Hn & _). intros Hx. assert (n = n0) by congruence. subst n0 n. rewrite teqb_refl in En. discriminate.
  - cbn [negb] in H. destruct (open_source P s1 (h_flags h) (file_info_of h k)) as [src|e] eqn:Eo; [|discriminate].
    apply open_read in Eo as (c & Hh & Hr); [|exact G1].
    destruct (Go (set_source s1 (Some (h_text h)) (Some src) 0) [] c) as [X Y]; [reflexivity|exact (eq_trans A1 Hsk)|exact A5|exists src; split; [reflexivity|exact Hh]|reflexivity|exact H|].
    exists [], c. split; [right|exact (conj X Y)]. split; [reflexivity|]. split; [|exact Hr].
    intros n0 a r ->. destruct Hc as (Hn & _). congruence.
Qed.
Definition there (l : list (fhead * N)) : Prop :=
  Forall (fun hk => is_dir (fst hk) = false -> exists p d, rar_path (h_text (fst hk)) p /\ disk p = Some d) l.
Lemma read_unique h c c' : (is_dir h = false -> exists p d, rar_path (h_text h) p /\ disk p = Some d) -> read_from disk h c -> read_from disk h c' -> c = c'.
Proof.
  unfold read_from. destruct (is_dir h); [congruence|]. intros (p & d & Hp & Hd) (q & Hq & A) (r & Hr & B); [reflexivity|].
  apply rar_os_file_name_spec in Hp, Hq, Hr. assert (q = p /\ r = p) as [-> ->] by (split; congruence). rewrite (A d Hd), (B d Hd). reflexivity.
Qed.
Lemma loop_match l : forall pos s cur s', cinv s cur -> rloop P srr s (sblks pos l) = (s', Continue) ->
  (silent s' -> silent s /\ crcs_match disk cur (file_parts l)) /\
  (there (file_parts l) -> silent s -> crcs_match disk cur (file_parts l) -> silent s').
Proof.
  induction l as [|i l IH]; intros pos s cur s' Hi H; cbn [sblks rloop] in H.
  - injection H as <-. split; [|auto]. intros X. split; [exact X|]. constructor.
  - destruct (rstep P srr s (sblk pos i)) as [s1 [| |e]] eqn:E; try discriminate.
    assert (O : (forall f, s_kind i <> KFile f) -> file_parts (i :: l) = file_parts l ->
      (silent s' -> silent s /\ crcs_match disk cur (file_parts (i :: l))) /\ (there (file_parts (i :: l)) -> silent s -> crcs_match disk cur (file_parts (i :: l)) -> silent s')).
    { intros Hk ->. destruct Hi as (G & Hsk & Hc). pose proof (rstep_good P f0 srr _ _ _ _ G E) as G1. apply other_keeps in E as (A1 & A2 & A3 & A4 & A5); [|exact Hsk|exact Hk].
      assert (C1 : cinv s1 cur).
      { split; [exact G1|]. split; [congruence|]. destruct cur as [[[n a] r]|]; [rewrite A2, A3, A4; exact Hc|congruence]. }
      rewrite <- A5. exact (IH _ s1 cur s' C1 H). }
    destruct i as [c f n e|c f n d e|c f n e|c f sz hs n e|c f d e|hd]; try (apply O; [intros ?; discriminate|reflexivity]).
    destruct hd as [h k|h mark rs ds pk|crc fl ver rs ds pk extra|h d|crc ty fl body d]; try (apply O; [intros ?; discriminate|reflexivity]).
    + destruct (file_match s pos h k s1 cur Hi E) as (past & rest & B & C & D).
      destruct (IH _ s1 _ s' C H) as [X Y]. change (file_parts (SHead (HFile h k) :: l)) with ((h, k) :: file_parts l). split.
      * intros Z. destruct (X Z) as [Z1 Z2]. apply D in Z1 as [Z0 D']. split; [exact Z0|].
        destruct B as [->|(-> & Hn & Hr)]; [now apply cm_next|]. apply (cm_new disk cur rest); assumption.
      * intros Ht Z M. apply Forall_cons_iff in Ht as [Ht1 Ht]. cbn [fst] in Ht1.
        assert (Q : crc_right h past (takeN k rest) /\ crcs_match disk (Some (h_text h, past ++ takeN k rest, dropN k rest)) (file_parts l)).
        { inversion M as [|past' rest' h1 k1 ps C1 M1 Q1 Q2|cur' c1 h1 k1 ps Hne R C1 M1 Q1 Q2]; subst.
          - destruct B as [B|(_ & Hn & _)]; [|exfalso; now apply (Hn (h_text h) past' rest')]. injection B as <- <-. auto.
          - destruct B as [->|(-> & _ & Hr)]; [exfalso; now apply (Hne (h_text h) past rest)|]. rewrite (read_unique h rest c1 Ht1 Hr R). auto. }
        destruct Q as [Q1 Q2]. apply Y; [exact Ht| |exact Q2]. apply D. auto.
    + apply O; [intros f'; apply hblock_kind|reflexivity].
Qed.
End Match.
Lemma init_inv P f : cinv P f (s_init f) None.
Proof. split; [|split; reflexivity]. split; [intros q d Hq; exact Hq|split; [intros q Hq; cbn in Hq; congruence|discriminate]]. Qed.
Theorem match_thm P l f s :
  srr_ok l -> p_part P = [] -> p_skip_crc P = false -> reconstruct P (ser_srr l) f = (s, Continue) ->
  (forall n, ~ In (ECrcFile n) (s_events s) /\ ~ In (ECrcVolume n) (s_events s)) ->
  crcs_match (fun p => fs_get f (in_folder (p_in P) p)) None (file_parts l).
Proof.
  intros Hok Hp Hc H Hs. unfold reconstruct in H. rewrite read_all_srr in H by exact Hok.
  apply (loop_match P (ser_srr l) f Hp Hc l 0 (s_init f) None s (init_inv P f) H).
  apply forallb_forall. intros e He. destruct e; try reflexivity; exfalso; [exact (proj2 (Hs path) He)|exact (proj1 (Hs name) He)].
Qed.
Theorem quiet_thm P l f s :
  srr_ok l -> p_part P = [] -> p_skip_crc P = false -> reconstruct P (ser_srr l) f = (s, Continue) ->
  Forall (fun hk => is_dir (fst hk) = false -> exists p d, rar_path (h_text (fst hk)) p /\ fs_get f (in_folder (p_in P) p) = Some d) (file_parts l) ->
  crcs_match (fun p => fs_get f (in_folder (p_in P) p)) None (file_parts l) ->
  forall n, ~ In (ECrcFile n) (s_events s) /\ ~ In (ECrcVolume n) (s_events s).
Proof.
  intros Hok Hp Hc H Ht M n. unfold reconstruct in H. rewrite read_all_srr in H by exact Hok.
  pose proof (proj2 (loop_match P (ser_srr l) f Hp Hc l 0 (s_init f) None s (init_inv P f) H) Ht eq_refl M) as X.
  unfold silent in X. rewrite forallb_forall in X. split; intros Y; apply X in Y; discriminate.
Qed.

(** ** One file *)
Lemma cm_skip disk pre : forall cur x, crcs_match disk cur (pre ++ x) -> exists cur', crcs_match disk cur' x /\
  forall n a r, cur' = Some (n, a, r) -> match pre with [] => cur = Some (n, a, r) | _ => h_text (fst (last pre (mkFhead 0 0 0 0 0 0 0 0 0 [] [] [] [] [], 0))) = n end.
Proof.
  induction pre as [|[h k] pre IH]; intros cur x H; [exists cur; auto|]. cbn [app] in H.
  assert (Go : forall past rest, crcs_match disk (Some (h_text h, past, rest)) (pre ++ x) -> exists cur', crcs_match disk cur' x /\
    forall n a r, cur' = Some (n, a, r) -> h_text (fst (last ((h, k) :: pre) (mkFhead 0 0 0 0 0 0 0 0 0 [] [] [] [] [], 0))) = n).
  { intros past rest G. destruct (IH _ _ G) as (cur' & A & B). exists cur'. split; [exact A|]. intros n a r E. specialize (B n a r E). destruct pre as [|q pre]; [injection B as <- _ _; reflexivity|exact B]. }
  inversion H; subst; eapply Go; eassumption.
Qed.
Lemma cm_group disk n g : forall past rest h k x, Forall (fun hk => h_text (fst hk) = n) g -> h_text h = n ->
  crcs_match disk (Some (n, past, rest)) (g ++ (h, k) :: x) -> lenN rest <= total g + k ->
  N.testbit (h_flags h) 1 = false -> h_method h = 0x30 -> is_crc32 (past ++ rest) (h_fcrc h).
Proof.
  induction g as [|[h' k'] g IH]; intros past rest h k x Hg Hn H Hl Hf Hm; cbn [app total snd] in *.
  - inversion H as [|past' rest' h1 k1 ps C M E1 E2|cur c h1 k1 ps Hne R C M E1 E2]; subst.
    + unfold crc_right in C. rewrite Hf in C. specialize (C Hm). rewrite takeN_all in C by lia. exact C.
    + exfalso. now apply (Hne (h_text h) past rest).
  - apply Forall_cons_iff in Hg as [Hg1 Hg]. cbn [fst] in Hg1.
    inversion H as [|past' rest' h1 k1 ps C M E1 E2|cur c h1 k1 ps Hne R C M E1 E2]; subst.
    + apply (IH _ _ h k x) in M; try assumption; [|rewrite lenN_dropN; lia].
      rewrite <- app_assoc, takeN_dropN in M. exact M.
    + exfalso. now apply (Hne (h_text h') past rest).
Qed.
Theorem match_file disk l pre g h k post n p c :
  crcs_match disk None (file_parts l) -> file_parts l = pre ++ (g ++ [(h, k)]) ++ post ->
  Forall (fun hk => h_text (fst hk) = n /\ is_dir (fst hk) = false) (g ++ [(h, k)]) ->
  (forall pre' x, pre = pre' ++ [x] -> h_text (fst x) <> n) ->
  N.testbit (h_flags h) 1 = false -> h_method h = 0x30 ->
  rar_path n p -> disk p = Some c -> lenN c <= total g + k -> is_crc32 c (h_fcrc h).
Proof.
  intros H E Hg Hp Hf Hm Hr Hd Hl. rewrite E in H. apply cm_skip in H as (cur & H & Hc).
  assert (Hne : forall m a r, cur = Some (m, a, r) -> m <> n).
  { intros m a r Ec. specialize (Hc m a r Ec). destruct pre as [|q pre0] using rev_ind; [discriminate|]. clear IHpre0.
    rewrite last_last in Hc. destruct (pre0 ++ [q]) eqn:X; [destruct pre0; discriminate|]. intros ->. now apply (Hp pre0 q). }
  destruct g as [|[h0 k0] g].
  - cbn [app total] in *. apply Forall_inv in Hg as [Hn Hd0]. cbn [fst] in *.
    inversion H as [|past' rest' h1 k1 ps C M E1 E2|cur' c1 h1 k1 ps Hne' R C M E1 E2]; subst.
    + exfalso. now apply (Hne (h_text h) past' rest').
    + unfold read_from in R. rewrite Hd0 in R. destruct R as (q & Hq & R). assert (q = p) by (apply rar_os_file_name_spec in Hq, Hr; congruence). subst q.
      rewrite (R c Hd) in C. unfold crc_right in C. rewrite Hf in C. specialize (C Hm). cbn [app] in C. rewrite takeN_all in C by lia. exact C.
  - cbn [app total snd] in *. apply Forall_cons_iff in Hg as [[Hn Hd0] Hg]. cbn [fst] in *. apply Forall_app in Hg as [Hg Hh]. apply Forall_inv in Hh as [Hh _]. cbn [fst] in Hh.
    rewrite <- app_assoc in H. cbn [app] in H.
    inversion H as [|past' rest' h1 k1 ps C M E1 E2|cur' c1 h1 k1 ps Hne' R C M E1 E2]; subst.
    + exfalso. now apply (Hne (h_text h0) past' rest').
    + unfold read_from in R. rewrite Hd0 in R. destruct R as (q & Hq & R). assert (q = p) by (apply rar_os_file_name_spec in Hq, Hr; congruence). subst q.
      rewrite (R c Hd) in M. apply (cm_group _ _ _ _ _ h k) in M; try assumption.
      * rewrite takeN_dropN in M. exact M.
      * eapply Forall_impl; [|exact Hg]. cbn. intros x [X _]. exact X.
      * rewrite lenN_dropN. lia.
Qed.
Theorem match_file_thm P l f s pre g h k post n p c :
  srr_ok l -> p_part P = [] -> p_skip_crc P = false -> reconstruct P (ser_srr l) f = (s, Continue) ->
  (forall n, ~ In (ECrcFile n) (s_events s) /\ ~ In (ECrcVolume n) (s_events s)) ->
  file_parts l = pre ++ (g ++ [(h, k)]) ++ post ->
  Forall (fun hk => h_text (fst hk) = n /\ is_dir (fst hk) = false) (g ++ [(h, k)]) ->
  (forall pre' x, pre = pre' ++ [x] -> h_text (fst x) <> n) ->
  N.testbit (h_flags h) 1 = false -> h_method h = 0x30 ->
  rar_path n p -> fs_get f (in_folder (p_in P) p) = Some c -> lenN c <= total g + k -> is_crc32 c (h_fcrc h).
Proof.
  intros H1 H2 H3 H4 H5 E Hg Hp Hf Hm Hr Hd Hl. exact (match_file _ l pre g h k post n p c (match_thm P l f s H1 H2 H3 H4 H5) E Hg Hp Hf Hm Hr Hd Hl).
Qed.
