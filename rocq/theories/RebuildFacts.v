(** RebuildFacts: reconstructing the volumes an SRR file holds. *)
From Verif Require Import Base BaseFacts Path PathSpec PathFacts Crc Rar RarSpec ReadSpec SrrSpec RecovSpec
  RecovFacts FsSpec SetSpec Srr FsFacts RarFacts ReadFacts ReadAllFacts SrrFacts EditFacts.

Lemma rloop_app P srr a : forall s b, rloop P srr s (a ++ b) =
  match rloop P srr s a with (s', Continue) => rloop P srr s' b | r => r end.
Proof.
  induction a as [|x a IH]; intros s b; cbn [rloop app]; [reflexivity|].
  destruct (rstep P srr s x) as [s1 [| |e]]; auto.
Qed.

(** ** Sources *)
Definition src_holds (src : source) (r : bytes) : Prop :=
  match src with SFile rest _ => rest = r | SFake n _ => r = repN n x00 end.
Lemma src_read_holds n src r : src_holds src r ->
  fst (src_read n src) = takeN n r /\ src_holds (snd (src_read n src)) (dropN n r).
Proof.
  destruct src as [rest w|k sz]; cbn; intros H; subst r.
  - auto.
  - split; [now rewrite takeN_repN|]. now rewrite dropN_repN.
Qed.
Lemma repack_loop_spec skip fuel : forall todo src rc fc r w src' rc' fc',
  src_holds src r -> todo <= lenN r -> todo <= 65536 * N.of_nat fuel ->
  repack_loop fuel todo src skip rc fc = (w, src', rc', fc') ->
  w = takeN todo r /\ src_holds src' (dropN todo r).
Proof.
  induction fuel as [|fuel IH]; intros todo src rc fc r w src' rc' fc' Hs Hl Hf H; cbn [repack_loop] in H.
  - injection H as <- <- <- <-. replace todo with 0 by lia. rewrite takeN_0, dropN_0. auto.
  - destruct (N.eqb_spec todo 0) as [->|Hz].
    + injection H as <- <- <- <-. rewrite takeN_0, dropN_0. auto.
    + set (n := N.min todo 65536) in *. destruct (src_read_holds n src r Hs) as [Hb Hs'].
      destruct (src_read n src) as [buf src1]. cbn [fst snd] in Hb, Hs'.
      destruct (repack_loop fuel (todo - n) src1 skip _ _) as [[[w1 src2] rc2] fc2] eqn:E.
      injection H as <- <- <- <-.
      apply (IH _ _ _ _ (dropN n r)) in E; [|exact Hs'|rewrite lenN_dropN; unfold n; lia|unfold n; lia].
      destruct E as [-> Hs2]. rewrite Hb, lenN_takeN.
      replace (n - N.min n (lenN r)) with 0 by (unfold n; lia). rewrite repN_0. cbn [app].
      split.
      * rewrite <- takeN_add. f_equal. unfold n. lia.
      * rewrite dropN_dropN in Hs2. replace (todo - n + n) with todo in Hs2 by (unfold n; lia). exact Hs2.
Qed.

Section Rebuild.
Variables (P : rparams) (srr : bytes) (f0 : fs).
Hypothesis Hpart : p_part P = [].
Definition disk (p : text) : option bytes := fs_get f0 (in_folder (p_in P) p).

Lemma not_partial : is_partial P = false.
Proof. unfold is_partial. now rewrite Hpart. Qed.

(** the state while writing volume [p] *)
Definition src_state (s : rstate) (cur : option (text * bytes)) : Prop :=
  match cur with
  | None => s_source s = None
  | Some (n, r) => s_source s = Some n /\ exists src, s_src s = Some src /\ src_holds src r
  end.
Record wvol (s : rstate) (p : text) (sofar : bytes) : Prop := mkV {
  w_vol : s_rarfs s = Some p;
  w_new : fs_get f0 p = None;
  w_sofar : fs_get (s_fs s) p = Some sofar;
  w_skip : s_skip s = false;
  w_rr : s_rr s = true;
  w_kept : kept fs_get f0 (s_fs s) }.
Record writing (s : rstate) (p : text) (sofar : bytes) (cur : option (text * bytes)) : Prop := mkW {
  w_v : wvol s p sofar; w_src : src_state s cur }.

Definition same_but (p : text) (s s' : rstate) : Prop :=
  s_rar_name s' = s_rar_name s /\ forall q, q <> p -> fs_get (s_fs s') q = fs_get (s_fs s) q.
Lemma same_but_refl p s : same_but p s s.
Proof. split; auto. Qed.
Lemma same_but_trans p a b c : same_but p a b -> same_but p b c -> same_but p a c.
Proof. intros [A B] [C D]. split; [congruence|]. intros q H. rewrite D, B; auto. Qed.

Lemma wvol_write s p sofar d : wvol s p sofar ->
  exists s', vol_write s d = (s', Continue) /\ s' = set_fs s (s_fs s') /\ wvol s' p (sofar ++ d) /\ same_but p s s'.
Proof.
  intros [A B C D E F]. unfold vol_write. rewrite A. eexists. split; [reflexivity|]. split; [reflexivity|].
  assert (O : forall q, q <> p -> fs_get (fs_append (s_fs s) p d) q = fs_get (s_fs s) q)
    by (intros; apply fs_append_other; auto).
  split; [constructor; try assumption|split; [reflexivity|exact O]].
  - cbn. rewrite (fs_append_some _ _ _ _ _ C). now rewrite teqb_refl.
  - intros q x H. cbn. rewrite O by congruence. now apply F.
Qed.
Lemma write_ok s p sofar cur d : writing s p sofar cur ->
  exists s', vol_write s d = (s', Continue) /\ writing s' p (sofar ++ d) cur /\ same_but p s s'.
Proof.
  intros [V G]. destruct (wvol_write s p sofar d V) as (s' & E & Es & V' & B). exists s'. split; [exact E|]. split; [|exact B].
  split; [exact V'|]. rewrite Es. exact G.
Qed.

Lemma open_ok s p sofar cur h c packed :
  writing s p sofar cur -> content_of disk h c -> h_method h = 0x30 ->
  exists src, open_source P s (h_flags h) (file_info_of h packed) = Ok src /\ src_holds src c.
Proof.
  intros W Hc Hm. unfold open_source, content_of, is_dir, F_DIRECTORY in *.
  destruct (N.land (h_flags h) 224 =? 224).
  - eexists. split; [reflexivity|]. exact Hc.
  - destruct Hc as (q & Hq & Hd & Hl). unfold locate_file. cbn [file_info_of f_name f_unpacked f_method].
    apply rar_os_file_name_spec in Hq as Hq'. rewrite Hq'. cbn [bind].
    destruct Hq as (cs & _ & Hb). rewrite (pjoin_folder _ _ _ Hb).
    rewrite (w_kept _ _ _ (w_v _ _ _ _ W) _ _ Hd).
    assert (Hs : negb (lenN c =? h_unpacked h) && negb (size_unknown (h_unpacked h)) = false).
    { unfold size_unknown. destruct Hl as [->|[->| ->]]; [now rewrite N.eqb_refl|apply andb_false_r|apply andb_false_r]. }
    rewrite Hs, Hm. eexists. split; [reflexivity|reflexivity].
Qed.

Lemma fuel_enough n : n <= 65536 * N.of_nat (repack_fuel n).
Proof. unfold repack_fuel. lia. Qed.

(** one file block *)
Lemma step_file s p sofar cur pos h data ps :
  writing s p sofar cur -> h_method h = 0x30 -> supplied disk cur ((h, data) :: ps) ->
  exists s' cur', rstep P srr s (hblk pos (HFile h (lenN data))) = (s', Continue) /\
    writing s' p (sofar ++ ser_item (HFile h (lenN data), data)) cur' /\
    same_but p s s' /\ supplied disk cur' ps.
Proof.
  intros W Hm Hsup. unfold rstep. cbn [hblk sblk b_type s_ty head_ty b_kind s_kind head_kind b_raw s_raw b_flags s_flags head_flags].
  change (116 =? T_SrrHeader) with false. change (116 =? T_SrrStored) with false.
  change (116 =? T_SrrRarFile) with false. change (116 =? T_RarOldRec) with false. cbn [andb].
  assert (R : is_recovery (hblk pos (HFile h (lenN data))) = Ok None) by reflexivity. rewrite R. clear R.
  cbn iota. change (116 =? T_RarFile) with true. cbn iota. rewrite (w_skip _ _ _ (w_v _ _ _ _ W)).
  destruct (write_ok _ _ _ _ (ser_sitem (SHead (HFile h (lenN data)))) W) as (s1 & -> & W1 & B1).
  rewrite not_partial. cbn [andb]. rewrite orb_false_r. cbn [file_info_of f_name f_packed].
  pose proof (w_src _ _ _ _ W1) as S1.
  assert (Hgo : forall s2 rest,
     writing s2 p (sofar ++ ser_sitem (SHead (HFile h (lenN data)))) (Some (h_text h, data ++ rest)) ->
     same_but p s s2 -> supplied disk (Some (h_text h, rest)) ps ->
     exists s' cur', (match s_src s2 with
        | None => (s2, Raise AssertionError)
        | Some src =>
          let '(w, src, rcrc, fcrc) :=
            repack_loop (repack_fuel (lenN data)) (lenN data) src (p_skip_crc P) (s_crc s2) 0 in
          match vol_write s2 w with
          | (s3, Continue) =>
             (add_events (set_source s3 (s_source s3) (Some src) rcrc)
              (repack_events (h_flags h) (file_info_of h (lenN data)) rcrc fcrc
                 (match s_rarfs s3 with Some p => p | None => [] end) (p_skip_crc P)), Continue)
          | r => r
          end
        end) = (s', Continue) /\
       writing s' p (sofar ++ ser_item (HFile h (lenN data), data)) cur' /\ same_but p s s' /\ supplied disk cur' ps).
  { intros s2 rest W2 B2 Hps. destruct (w_src _ _ _ _ W2) as (Hn & src & Hsrc & Hh). rewrite Hsrc.
    destruct (repack_loop _ _ _ _ _ _) as [[[w src'] rc] fc] eqn:E.
    apply (repack_loop_spec _ _ _ _ _ _ _ _ _ _ _ Hh) in E; [|rewrite lenN_app; lia|apply fuel_enough].
    destruct E as [-> Hh']. rewrite takeN_app_exact by reflexivity. rewrite dropN_app_exact in Hh' by reflexivity.
    destruct (write_ok _ _ _ _ data W2) as (s3 & -> & W3 & B3).
    eexists. exists (Some (h_text h, rest)). split; [reflexivity|]. split; [|split].
    - destruct W3 as [[A B C D E F] G]. split; [constructor; try assumption|].
      + etransitivity; [exact C|]. f_equal. unfold ser_item. cbn [fst snd]. symmetry. apply app_assoc.
      + cbn. split; [apply G|]. eauto.
    - destruct B2 as [X1 X2], B3 as [Y1 Y2]. split; [cbn; congruence|]. intros q Hq. cbn. rewrite Y2, X2; auto.
    - exact Hps. }
  inversion Hsup as [|n rest h' d' ps' Hn Hps E1 E2|cur' h' d' rest ps' Hne Hc Hps E1 E2]; subst.
  - destruct S1 as (Hn1 & src & Hsrc & Hh). rewrite Hn1, teqb_refl. cbn [negb].
    destruct (Hgo s1 rest W1 B1 Hps) as (s' & cur' & He & R). exists s', cur'. split; [|exact R].
    exact He.
  - assert (Hsame : match s_source s1 with Some n => teqb n (h_text h) | None => false end = false).
    { destruct cur as [[n r]|]; cbn in S1; [|now rewrite S1]. destruct S1 as [-> _]. apply teqb_neq.
      intros ->. now apply (Hne (h_text h) r). }
    rewrite Hsame. cbn [negb].
    destruct (open_ok _ _ _ _ h _ (lenN data) W1 Hc Hm) as (src & Ho & Hh). rewrite Ho.
    apply (Hgo (set_source s1 (Some (h_text h)) (Some src) 0) rest).
    + destruct W1 as [[A B C D E F] G]. split; [constructor; assumption|]. cbn. eauto.
    + destruct B1 as [X1 X2]. split; [exact X1|exact X2].
    + exact Hps.
Qed.

Lemma step_plain s p sofar pos i :
  wvol s p sofar -> is_recovery (sblk pos i) = Ok None ->
  (0x72 <= s_ty i <= 0x7B /\ s_ty i <> 0x74 \/ (s_ty i = 0 /\ lenN (s_body i) = 13)) ->
  rstep P srr s (sblk pos i) = vol_write s (s_raw i).
Proof.
  intros W R T. unfold rstep. rewrite R. cbn [sblk b_type b_hsize b_raw]. rewrite (w_skip _ _ _ W).
  unfold T_SrrHeader, T_SrrStored, T_SrrRarFile, T_RarOldRec, T_RarFile, T_RarMin, T_RarMax, T_SrrOso, T_SrrPadding.
  destruct T as [[T T']|[T T']].
  - rewrite (proj2 (N.eqb_neq _ 105)), (proj2 (N.eqb_neq _ 106)), (proj2 (N.eqb_neq _ 113)), (proj2 (N.eqb_neq _ 116)) by lia.
    rewrite andb_false_r.
    rewrite (proj2 (N.leb_le 114 _)), (proj2 (N.leb_le _ 123)) by lia. reflexivity.
  - rewrite T, T'. reflexivity.
Qed.

Lemma step_nonfile s p sofar pos i :
  wvol s p sofar -> sofar <> [] -> item_ok i -> known_type (fst i) -> recov_right sofar i -> piece_of i = [] ->
  rstep P srr s (hblk pos (fst i)) = vol_write s (ser_item i).
Proof.
  intros W Hne [Hok Hlen] Hk Hr Hs. destruct i as [hd data]. cbn [fst snd] in *.
  change (ser_item (hd, data)) with (ser_head hd ++ data).
  assert (Rec : forall rs ds, is_recovery (hblk pos hd) = Ok (Some (rs, ds)) ->
     head_ty hd = 0x7A \/ head_ty hd = 0x78 ->
     (0 < rs /\ N.of_nat (sector_count sofar) <= ds /\ data = rr_data (N.to_nat rs) (N.to_nat ds) sofar) \/
      (rs = 0 /\ data = []) -> rstep P srr s (hblk pos hd) = vol_write s (ser_head hd ++ data)).
  { intros rs ds R T H. unfold rstep. rewrite R, (w_skip _ _ _ W), (w_rr _ _ _ W), (w_vol _ _ _ W), (w_sofar _ _ _ W).
    cbn [hblk sblk b_type s_ty b_raw s_raw].
    assert (E : (head_ty hd =? T_SrrHeader) = false /\ (head_ty hd =? T_SrrStored) = false /\ (head_ty hd =? T_SrrRarFile) = false)
      by (destruct T as [-> | ->]; auto).
    destruct E as (-> & -> & ->). rewrite !andb_false_r, andb_true_r.
    destruct H as [(H0 & Hd & ->)|[-> ->]].
    - rewrite (proj2 (N.ltb_lt _ _) H0).
      rewrite recovery_bytes_ok by assumption.
      rewrite (proj2 (N.leb_le _ _) Hd). reflexivity.
    - change (0 <? 0) with false. cbn iota. now rewrite app_nil_r. }
  destruct hd as [h pk|h mark rs ds pk|crc fl ver rs ds pk extra|h d|crc ty fl body d].
  - discriminate.
  - apply (Rec rs ds); [reflexivity|now left|exact Hr].
  - apply (Rec rs ds); [reflexivity|now right|exact Hr].
  - cbn [head_packed] in Hlen. apply lenN_0 in Hlen. subst data.
    rewrite app_nil_r. unfold hblk. rewrite (step_plain _ _ _ _ _ W); [reflexivity|reflexivity|].
    left. cbn. lia.
  - cbn [head_packed] in Hlen. apply lenN_0 in Hlen. subst data.
    rewrite app_nil_r. destruct Hok as (_ & Hty & _). cbn [In] in Hty.
    unfold hblk. rewrite (step_plain _ _ _ _ _ W); [reflexivity| |].
    + unfold is_recovery. cbn [sblk b_kind s_kind head_kind b_type s_ty head_ty].
      unfold T_RarNewSub, T_RarOldRec. rewrite (proj2 (N.eqb_neq ty 122)), (proj2 (N.eqb_neq ty 120)) by lia.
      destruct body; [reflexivity|]. destruct (ty =? 115); [reflexivity|]. destruct (ty =? 123); reflexivity.
    + cbn [s_ty head_ty s_body head_body]. destruct Hk as [Hk|Hk]; [left; lia|right; exact Hk].
Qed.
Lemma step_item s p sofar cur pos i ps :
  writing s p sofar cur -> sofar <> [] -> item_ok i -> known_type (fst i) -> recov_right sofar i ->
  supplied disk cur (piece_of i ++ ps) ->
  exists s' cur', rstep P srr s (hblk pos (fst i)) = (s', Continue) /\
    writing s' p (sofar ++ ser_item i) cur' /\ same_but p s s' /\ supplied disk cur' ps.
Proof.
  intros W Hne Hok Hk Hr Hs.
  assert (Done : piece_of i = [] -> exists s' cur', rstep P srr s (hblk pos (fst i)) = (s', Continue) /\
    writing s' p (sofar ++ ser_item i) cur' /\ same_but p s s' /\ supplied disk cur' ps).
  { intros Hn. rewrite Hn in Hs. rewrite (step_nonfile s p sofar pos i (w_v _ _ _ _ W) Hne Hok Hk Hr Hn).
    destruct (write_ok _ _ _ _ (ser_item i) W) as (s' & E' & W' & B'). exists s', cur. auto. }
  destruct i as [hd data]. destruct hd as [h pk|h mark rs ds pk|crc fl ver rs ds pk extra|h d|crc ty fl body d]; try (apply Done; reflexivity).
  destruct Hok as [_ Hlen]. cbn [fst snd head_packed] in *. subst pk. exact (step_file _ _ _ _ _ _ _ _ W Hk Hs).
Qed.

Lemma items_ok l : forall pos s p sofar cur ps,
  writing s p sofar cur -> sofar <> [] -> Forall item_ok l -> Forall (fun i => known_type (fst i)) l ->
  recovs_right sofar l -> supplied disk cur (concat (map piece_of l) ++ ps) ->
  exists s' cur', rloop P srr s (sblks pos (map (fun i => SHead (fst i)) l)) = (s', Continue) /\
    writing s' p (sofar ++ concat (map ser_item l)) cur' /\ same_but p s s' /\ supplied disk cur' ps.
Proof.
  induction l as [|i l IH]; intros pos s p sofar cur ps W Hne Hok Hk Hr Hs; cbn [map sblks concat rloop app] in *.
  - exists s, cur. rewrite app_nil_r. split; [reflexivity|]. split; [exact W|]. split; [apply same_but_refl|exact Hs].
  - apply Forall_cons_iff in Hok as [Hi Hok]. apply Forall_cons_iff in Hk as [Ki Hk]. destruct Hr as [Ri Hr].
    rewrite <- app_assoc in Hs.
    destruct (step_item s p sofar cur pos i _ W Hne Hi Ki Ri Hs) as (s1 & c1 & E1 & W1 & B1 & S1).
    unfold hblk in E1. rewrite E1.
    destruct (IH (pos + lenN (ser_sitem (SHead (fst i)))) s1 p _ c1 ps W1) as (s2 & c2 & E2 & W2 & B2 & S2); auto.
    { destruct sofar; [congruence|discriminate]. }
    exists s2, c2. rewrite app_assoc. split; [exact E2|]. split; [exact W2|]. split; [|exact S2].
    eapply same_but_trans; eauto.
Qed.

Definition idle (s : rstate) (cur : option (text * bytes)) : Prop :=
  kept fs_get f0 (s_fs s) /\ src_state s cur.

Lemma sblks_app a : forall pos b, sblks pos (a ++ b) = sblks pos a ++ sblks (pos + lenN (ser_srr a)) b.
Proof.
  induction a as [|x a IH]; intros pos b; cbn [app sblks].
  - now rewrite N.add_0_r.
  - rewrite IH, ser_srr_cons, lenN_app, N.add_assoc. reflexivity.
Qed.

Lemma step_pad s po c f d : s_skip s = false -> rstep P srr s (sblk po (SPad c f d [])) = vol_write s d.
Proof.
  intros Hsk. unfold rstep. change (is_recovery _) with (@Ok (option (N*N)) None). cbn [sblk b_type s_ty b_kind].
  change (108 =? T_SrrHeader) with false. change (108 =? T_SrrStored) with false. change (108 =? T_SrrRarFile) with false.
  change (108 =? T_RarOldRec) with false. change (108 =? T_RarFile) with false. change (108 =? T_SrrOso) with false.
  change (108 =? T_SrrPadding) with true. change (108 =? 0) with false.
  change ((T_RarMin <=? 108) && (108 <=? T_RarMax) || false && _) with false.
  cbn iota. rewrite Hsk. cbn [andb]. cbn [b_hsize b_raw s_raw]. unfold ser_sitem. f_equal.
  cbn [s_data]. apply dropN_app_exact. now rewrite lenN_hdr.
Qed.
Lemma volume_step s cur pos n v out ps :
  idle s cur -> opath n (p_paths P) (p_out P) = Ok out -> s_rar_name s <> n ->
  fs_get (s_fs s) out = None -> store_volume v -> supplied disk cur (pieces v ++ ps) ->
  exists s' cur', rloop P srr s (sblks pos (vol_items n v)) = (s', Continue) /\
    idle s' cur' /\ s_rar_name s' = n /\ fs_get (s_fs s') out = Some (ser_volume v) /\
    (forall q, q <> out -> fs_get (s_fs s') q = fs_get (s_fs s) q) /\ supplied disk cur' ps.
Proof.
  intros [Hkept Hsrc] Ho Hn Hnone (Hvok & Hk & Hr) Hs. unfold vol_items. cbn [sblks rloop].
  set (s0 := set_volume (set_fs (set_skip s false (s_pset s)) (fs_set (s_fs s) out [])) n (Some out) true).
  assert (E0 : rstep P srr s (sblk pos (rar_item n)) = (s0, Continue)).
  { unfold rstep. cbn [sblk rar_item b_type s_ty b_kind s_kind b_flags s_flags].
    change (113 =? T_SrrHeader) with false. change (113 =? T_SrrStored) with false. change (113 =? T_SrrRarFile) with true.
    cbn iota. rewrite not_partial. cbn [andb negb].
    replace (teqb _ n) with false by (symmetry; apply teqb_neq; exact Hn).
    cbn [andb negb]. rewrite Ho. unfold can_overwrite, isfile. cbn [set_skip s_fs].
    rewrite Hnone. reflexivity. }
  rewrite E0.
  assert (Hf0 : fs_get f0 out = None).
  { destruct (fs_get f0 out) eqn:E; [|reflexivity]. apply Hkept in E. congruence. }
  assert (W0 : writing s0 out [] cur).
  { split; [constructor; try reflexivity|exact Hsrc].
    - exact Hf0.
    - unfold s0. cbn [s_fs set_volume set_fs]. rewrite fs_get_set, teqb_refl. reflexivity.
    - intros q d H. unfold s0. cbn [s_fs set_volume set_fs]. rewrite fs_get_set.
      destruct (teqb out q) eqn:E; [apply teqb_eq in E; congruence|]. now apply Hkept. }
  assert (Em : rstep P srr s0 (sblk (pos + lenN (ser_sitem (rar_item n))) (SHead MARKER)) = vol_write s0 (ser_head MARKER)).
  { rewrite (step_plain _ _ _ _ _ (w_v _ _ _ _ W0)); [reflexivity|reflexivity|]. left. cbn. lia. }
  rewrite Em.
  destruct (write_ok _ _ _ _ (ser_head MARKER) W0) as (s1 & -> & W1 & B1).
  cbn [app] in W1.
  rewrite sblks_app, rloop_app.
  destruct (items_ok (v_items v) (pos + lenN (ser_sitem (rar_item n)) + lenN (ser_sitem (SHead MARKER))) s1 out _ cur ps W1)
    as (s2 & c2 & E2 & W2 & B2 & S2); auto; [discriminate|apply Hvok|].
  rewrite E2.
  assert (Hpad : exists s3, rloop P srr s2 (sblks (pos + lenN (ser_sitem (rar_item n)) + lenN (ser_sitem (SHead MARKER)) +
       lenN (ser_srr (map (fun i => SHead (fst i)) (v_items v)))) (pad_item (v_pad v))) = (s3, Continue) /\
     writing s3 out (ser_volume v) c2 /\ same_but out s2 s3).
  { unfold ser_volume, pad_item. destruct (v_pad v) as [|x pad] eqn:Ep.
    - exists s2. rewrite app_nil_r. split; [reflexivity|]. split; [exact W2|apply same_but_refl].
    - cbn [sblks rloop]. set (po := _ + lenN (ser_srr _)).
      rewrite (step_pad s2 po _ _ _ (w_skip _ _ _ (w_v _ _ _ _ W2))). destruct (write_ok _ _ _ _ (x :: pad) W2) as (s3 & -> & W3 & B3).
      exists s3. rewrite app_assoc. auto. }
  destruct Hpad as (s3 & E3 & W3 & B3). rewrite E3. exists s3, c2.
  destruct B1 as [N1 F1], B2 as [N2 F2], B3 as [N3 F3].
  split; [reflexivity|]. split; [split; [apply W3|apply W3]|]. split; [|split; [apply W3|split; [|exact S2]]].
  - rewrite N3, N2, N1. reflexivity.
  - intros q Hq. rewrite F3, F2, F1 by exact Hq. unfold s0. cbn [s_fs set_volume set_fs]. rewrite fs_get_set.
    replace (teqb out q) with false by (symmetry; apply teqb_neq; congruence). reflexivity.
Qed.

Definition opath_in (n : text) (outs : list text) : Prop :=
  exists o, opath n (p_paths P) (p_out P) = Ok o /\ In o outs.
Definition stored_fine (outs : list text) (l : list sitem) : Prop :=
  p_extract P = true ->
  Forall (fun n => exists o, opath n (p_paths P) (p_out P) = Ok o /\ ~ In o outs) (stored_names l).

Lemma neutral_step s cur pos i outs :
  neutral i = true -> idle s cur -> stored_fine outs [i] ->
  exists s', rstep P srr s (sblk pos i) = (s', Continue) /\ idle s' cur /\ s_rar_name s' = s_rar_name s /\
    (forall q d, fs_get (s_fs s) q = Some d -> fs_get (s_fs s') q = Some d) /\
    (forall q, (p_extract P = true -> Forall (fun n => opath n (p_paths P) (p_out P) <> Ok q) (stored_names [i])) ->
       fs_get (s_fs s') q = fs_get (s_fs s) q) /\
    (forall q, In q outs -> fs_get (s_fs s') q = fs_get (s_fs s) q).
Proof.
  intros Hn [Hk Hs] Hst. destruct i as [c f n e|c f n d e|c f n e|c f sz h n e|c f d e|hd]; try discriminate Hn.
  - exists s. repeat split; auto.
  - unfold rstep. cbn [sblk b_type s_ty b_kind s_kind]. change (106 =? T_SrrHeader) with false.
    change (106 =? T_SrrStored) with true. cbn iota.
    destruct (p_extract P) eqn:Ex; [|exists s; repeat split; auto].
    specialize (Hst Ex). cbn in Hst. apply Forall_inv in Hst. destruct Hst as (o & Ho & Hno). rewrite Ho.
    unfold extract1, can_overwrite, isfile. destruct (fs_get (s_fs s) o) as [x|] eqn:Eo.
    + eexists. split; [reflexivity|]. cbn [negb fst set_fs s_fs s_rar_name]. repeat split; auto.
    + cbn [negb fst]. eexists. split; [reflexivity|]. cbn [set_fs s_fs s_rar_name].
      assert (K : forall q, q <> o -> fs_get (fs_set (s_fs s) o (srr_data srr (sblk pos (SStored c f n d e)))) q = fs_get (s_fs s) q).
      { intros q Hq. rewrite fs_get_set. replace (teqb o q) with false by (symmetry; apply teqb_neq; congruence). reflexivity. }
      assert (K' : forall q d', fs_get (s_fs s) q = Some d' -> fs_get (fs_set (s_fs s) o (srr_data srr (sblk pos (SStored c f n d e)))) q = Some d').
      { intros q d' H. rewrite K; [exact H|congruence]. }
      split; [|split; [reflexivity|split; [exact K'|split]]].
      * split; [intros q d' H; apply K'; now apply Hk|exact Hs].
      * intros q H. apply K. specialize (H eq_refl). cbn in H. apply Forall_inv in H. congruence.
      * intros q H. apply K. congruence.
  - exists s. repeat split; auto.
Qed.

Theorem volumes_ok l vs : holds_volumes l vs -> forall pos s cur outs,
  idle s cur ->
  Forall2 (fun nv o => opath (fst nv) (p_paths P) (p_out P) = Ok o) vs outs -> NoDup outs ->
  Forall (fun o => fs_get (s_fs s) o = None) outs ->
  ~ opath_in (s_rar_name s) outs ->
  stored_fine outs l -> Forall (fun nv => store_volume (snd nv)) vs ->
  supplied disk cur (concat (map (fun nv => pieces (snd nv)) vs)) ->
  exists s' cur', rloop P srr s (sblks pos l) = (s', Continue) /\ idle s' cur' /\
    Forall2 (fun nv o => fs_get (s_fs s') o = Some (ser_volume (snd nv))) vs outs /\
    (forall q d, fs_get (s_fs s) q = Some d -> fs_get (s_fs s') q = Some d) /\
    (forall q, ~ In q outs ->
       (p_extract P = true -> Forall (fun n => opath n (p_paths P) (p_out P) <> Ok q) (stored_names l)) ->
       fs_get (s_fs s') q = fs_get (s_fs s) q).
Proof.
  induction 1 as [|i l vs Hn Hl IH|n v l vs Hl IH]; intros pos s cur outs Hi Ho Hd Hfree Hname Hst Hv Hs.
  - inversion Ho; subst. exists s, cur. repeat split; auto; apply Hi.
  - assert (Hst' : stored_fine outs [i] /\ stored_fine outs l).
    { split; intros Hx; specialize (Hst Hx); rewrite stored_names_cons in Hst; apply Forall_app in Hst as [A B]; [|exact B].
      rewrite stored_names_cons, app_nil_r. exact A. }
    destruct Hst' as [Hst1 Hst2].
    destruct (neutral_step s cur pos i outs Hn Hi Hst1) as (s1 & E1 & I1 & N1 & K1 & O1 & U1).
    destruct (IH (pos + lenN (ser_sitem i)) s1 cur outs I1 Ho Hd) as (s2 & c2 & E2 & I2 & V2 & K2 & O2); auto.
    { rewrite Forall_forall in *. intros o Hin. rewrite U1 by exact Hin. now apply Hfree. }
    { now rewrite N1. }
    exists s2, c2. cbn [sblks rloop]. rewrite E1. split; [exact E2|]. split; [exact I2|]. split; [exact V2|].
    split; [auto|]. intros q Hq Hx. rewrite O2, O1; auto.
    + intros X. specialize (Hx X). rewrite stored_names_cons in Hx. apply Forall_app in Hx as [A B].
      rewrite stored_names_cons, app_nil_r. exact A.
    + intros X. specialize (Hx X). rewrite stored_names_cons in Hx. now apply Forall_app in Hx as [A B].
  - apply Forall_cons_iff in Hv as [Hv1 Hv]. cbn [snd] in Hv1.
    inversion Ho as [|nv o vs' outs' Ho1 Ho2]; subst. cbn [fst] in Ho1.
    apply NoDup_cons_iff in Hd as [Hd1 Hd]. apply Forall_cons_iff in Hfree as [Hf1 Hfree].
    cbn [map concat snd] in Hs.
    assert (Hsn : stored_names (vol_items n v ++ l) = stored_names l).
    { unfold stored_names, vol_items. cbn [app map concat]. rewrite !map_app, !concat_app.
      rewrite map_map. assert (X : forall is : list item, concat (map (fun _ => @nil text) is) = []) by (induction is; auto).
      rewrite X. unfold pad_item. destruct (v_pad v); reflexivity. }
    destruct (volume_step s cur pos n v o (concat (map (fun nv => pieces (snd nv)) vs)) Hi Ho1)
      as (s1 & c1 & E1 & I1 & N1 & V1 & O1 & S1); auto.
    { intros En. apply Hname. exists o. rewrite En. split; [exact Ho1|now left]. }
    destruct (IH (pos + lenN (ser_srr (vol_items n v))) s1 c1 outs' I1 Ho2 Hd) as (s2 & c2 & E2 & I2 & V2 & K2 & O2); auto.
    { rewrite Forall_forall in *. intros q Hin. rewrite O1; [now apply Hfree|congruence]. }
    { rewrite N1. intros (q & Hq & Hin). congruence. }
    { intros X. specialize (Hst X). rewrite Hsn in Hst. eapply Forall_impl; [|exact Hst].
      intros a (x & A & B). exists x. split; [exact A|]. intros C. apply B. now right. }
    exists s2, c2. rewrite sblks_app, rloop_app, E1. split; [exact E2|]. split; [exact I2|].
    split; [constructor; [apply K2, V1|exact V2]|]. split.
    + intros q d Hq. apply K2. rewrite O1; congruence.
    + intros q Hq Hx. rewrite Hsn in Hx. rewrite O2, O1; auto; cbn [In] in Hq; intuition congruence.
Qed.
End Rebuild.
