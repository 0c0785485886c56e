(** MkvFits: at the other places of a track are frames that begin like its signature. *)
From Verif Require Import Base BaseFacts Crc CrcFacts SrsRec SrsRecSpec SrsRecFacts Srs SrrFacts Ebml EbmlSpec EbmlFacts Mkv StrmSpec Mp3Spec MkvSpec MkvRead MkvSrs MkvLoad MkvOut MkvFind MkvSearch MkvExtract MkvMain MkvRetry MkvRetrySpec MkvRetryFacts MkvAgain MkvTried.

(** ** The headers that are known when a block is read *)
Definition rel (m0 m : mains) : Prop := mm_cur m = mm_cur m0 /\ mm_three m = mm_three m0 /\
  (forall n x, get N.eqb n (mm_strip m0) = Ok x -> get N.eqb n (mm_strip m) = Ok x) /\ forall n x, get N.eqb n (mm_strip m) = Ok x -> get N.eqb n (mm_strip m0) = Ok x \/ x = [].
Lemma rel_key m0 m k : rel m0 m -> rel m0 (mkM (with_key N.eqb k [] (mm_strip m)) (mm_cur m) (mm_three m)).
Proof.
  intros (R1 & R2 & R3 & R4). split; [exact R1|]. split; [exact R2|]. cbn [mm_strip]. split; intros n x G.
  - rewrite (get_with_key N.eqb N.eqb_eq), (R3 n x G). reflexivity.
  - rewrite (get_with_key N.eqb N.eqb_eq) in G. destruct (get N.eqb n (mm_strip m)) as [y|e] eqn:Gy; [apply ok_inj in G; subst y; now apply R4|]. destruct (k =? n); [|discriminate G]. apply ok_inj in G. now right.
Qed.
Lemma mstep_rel m0 m i m0' m' : rel m0 m -> mstep m0 i = Ok m0' -> mstep m i = Ok m' -> rel m0' m'.
Proof.
  intros R E0 E. assert (R' := R). destruct R as (R1 & R2 & R3 & R4). destruct i as [id w n|id w d|b]; cbn [mstep] in *; [apply ok_inj in E0; apply ok_inj in E; now subst| |apply ok_inj in E0; apply ok_inj in E; now subst].
  destruct (existsb (beqb id) in_tracks).
  - unfold main_track in *. destruct (beqb id TRACKNUMBER).
    + destruct (get_ebml_uint d 0 (lenN d)) as [n|e]; [|discriminate E]. cbn [bind] in *. apply ok_inj in E0. apply ok_inj in E. subst. split; [reflexivity|]. split; [exact R2|]. cbn [mm_strip]. split; intros q x G; rewrite (get_with_key N.eqb N.eqb_eq) in *.
      * destruct (get N.eqb q (mm_strip m0)) as [y|e] eqn:Gy; [apply ok_inj in G; subst y; now rewrite (R3 q x Gy)|]. destruct (n =? q); [|discriminate G]. apply ok_inj in G. subst x. destruct (get N.eqb q (mm_strip m)) as [z|e2] eqn:Gz; [|reflexivity]. destruct (R4 q z Gz) as [H| ->]; [congruence|reflexivity].
      * destruct (get N.eqb q (mm_strip m)) as [y|e] eqn:Gy; [apply ok_inj in G; subst y; destruct (R4 q x Gy) as [H|H]; [left; now rewrite H|now right]|]. destruct (n =? q); [|discriminate G]. apply ok_inj in G. now right.
    + destruct (beqb id COMPRESSIONALGORITHM).
      * destruct (get_ebml_uint d 0 (lenN d)) as [n|e]; [|discriminate E]. cbn [bind] in *. apply ok_inj in E0. apply ok_inj in E. subst. now repeat split.
      * rewrite R2 in E. destruct (mm_three m0); [|apply ok_inj in E0; apply ok_inj in E; now subst]. destruct (get N.eqb (mm_cur m0) (mm_strip m0)) as [x0|e]; [|discriminate E0]. destruct (get N.eqb (mm_cur m) (mm_strip m)) as [x1|e]; [|discriminate E]. cbn [bind] in *. apply ok_inj in E0. apply ok_inj in E. subst.
        split; [exact R1|]. split; [reflexivity|]. cbn [mm_strip]. rewrite R1. split; intros q x G; (destruct (N.eq_dec q (mm_cur m0)) as [->|Nq]; [rewrite (get_put_same N.eqb N.eqb_eq) in *; auto|rewrite (get_put_other N.eqb N.eqb_eq) in * by exact Nq; auto]).
  - destruct (beqb id TRACKCODEC); [|apply ok_inj in E0; apply ok_inj in E; now subst]. destruct (get N.eqb (mm_cur m0) (mm_strip m0)); [|discriminate E0]. destruct (get N.eqb (mm_cur m) (mm_strip m)); [|discriminate E]. cbn [bind] in *. apply ok_inj in E0. apply ok_inj in E. now subst.
Qed.
Lemma msteps_app m a b : msteps m (a ++ b) = do m' <- msteps m a; msteps m' b.
Proof. revert m. induction a as [|i a IH]; intros m; [reflexivity|]. cbn [app msteps]. destruct (mstep m i); [|reflexivity]. cbn [bind]. apply IH. Qed.
Lemma find_mains cut s pos i y : find' cut s pos i = Ok y -> (match i with Blk _ => False | _ => True end) -> mstep (f_main s) i = Ok (f_main (fst y)).
Proof.
  intros E Nb. destruct i as [id w n|id w d|b]; [apply ok_inj in E; now subst| |destruct Nb]. cbn [find' mstep] in *. destruct (existsb (beqb id) in_tracks); [destruct (main_track _ _ _); [|discriminate E]; cbn [bind] in E; apply ok_inj in E; now subst|].
  destruct (beqb id TRACKCODEC); [destruct (get N.eqb _ _); [|discriminate E]; cbn [bind] in *|]; apply ok_inj in E; now subst.
Qed.
Lemma find_mains_blk cut s pos b y : find' cut s pos (Blk b) = Ok y -> f_main (fst y) = mkM (with_key N.eqb (k_no b) [] (mm_strip (f_main s))) (mm_cur (f_main s)) (mm_three (f_main s)).
Proof.
  intros E. cbn [find'] in E. cbv zeta in E. bindinv E. bindinv E. destruct (searching v); [|destruct (counting v)]; apply ok_inj in E; now subst.
Qed.

(** ** A frame that is kept *)
Lemma starts_is a b : starts_with Byte.eqb a b = true <-> starts a b.
Proof. apply starts_with_is. Qed.
Lemma extra_fits e fs fm sig l : forall (p v : bytes) o, In o (extra_frames e (p ++ concat l ++ v) fs fm sig (map Z.of_N (map lenN l)) (Z.of_N (lenN p))) ->
  exists x, In (o, x) (placed (e_data e + lenN p) l) /\ starts (takeN (lenN sig) (fs ++ dropN (lenN fm) x)) sig.
Proof.
  induction l as [|y l IH]; intros p v o H; [destruct H|]. cbn [map extra_frames] in H. apply in_app_or in H as [H|H].
  - unfold extra_frame in H. cbv zeta in H. match type of H with In _ (if ?c then _ else _) => destruct c eqn:C end; [|destruct H]. destruct H as [<-|[]]. exists y. split; [left; f_equal; lia|].
    apply starts_is in C. destruct C as (r & C). cbn [concat] in C.
    assert (Lf : lenN fs <= lenN sig) by (rewrite C, !lenN_app; lia).
    rewrite takeN_app, takeN_all by exact Lf. destruct (N.le_gt_cases (lenN fm) (lenN y)) as [Hy|Hy].
    + exists r. rewrite C at 1. rewrite <- !app_assoc. f_equal. f_equal.
      replace (p ++ y ++ concat l ++ v) with ((p ++ takeN (lenN fm) y) ++ dropN (lenN fm) y ++ (concat l ++ v)) by (rewrite <- !app_assoc, (app_assoc (takeN _ _)), takeN_dropN; reflexivity).
      rewrite (slice_mid (p ++ takeN (lenN fm) y) (dropN (lenN fm) y) (concat l ++ v)); [|rewrite lenN_app, lenN_takeN; lia|lia|rewrite lenN_dropN; lia].
      destruct (N.le_gt_cases (lenN sig - lenN fs) (lenN (dropN (lenN fm) y))) as [H|H]; rewrite lenN_dropN in H; [f_equal; lia|]. rewrite !takeN_all; [reflexivity| |]; rewrite lenN_dropN; lia.
    + rewrite (dropN_all (lenN fm) y) by lia. replace (takeN (lenN sig - lenN fs) (@nil byte)) with (@nil byte) by (symmetry; apply takeN_all; cbn [lenN]; lia). rewrite app_nil_r. rewrite C. rewrite <- app_assoc. eexists. reflexivity.
  - replace (Z.of_N (lenN p) + Z.of_N (lenN y))%Z with (Z.of_N (lenN (p ++ y))) in H by (rewrite lenN_app; lia). replace (p ++ concat (y :: l) ++ v) with ((p ++ y) ++ concat l ++ v) in H by (cbn [concat]; now rewrite <- !app_assoc).
    apply IH in H as (x & Hx & S). exists x. split; [|exact S]. right. rewrite lenN_app, N.add_assoc in Hx. exact Hx.
Qed.

(** ** The search *)
Lemma others_fit f ms ts c0 ts' c : movie_ok f ms -> kept_all ts ts -> (forall k l, get N.eqb k c0 = Ok l -> l = []) -> mkv_find_all c0 ts f = Ok (ts', c) ->
  forall k t0 l o, get N.eqb k ts = Ok t0 -> get N.eqb k c = Ok l -> In o l ->
  exists x, In (o, x) (frames_at k 0 (all_items ms)) /\ starts (takeN (lenN (td_signature (m_td t0))) (as_sample (m_strip t0) (header_of k (all_items ms)) x)) (td_signature (m_td t0)).
Proof.
  intros M K0 C0 H. destruct (movie_split f ms M) as (p1 & p2 & Ep & N1 & N2 & Nb1). destruct M as ((r & Ef & Lr) & F & _ & Nu & _ & Bl).
  assert (F12 : Forall part_ok p1 /\ Forall part_ok p2) by (rewrite Ep in F; now apply Forall_app in F). destruct F12 as (F1 & F2). destruct (late_parts p2 F2 N2) as (_ & Nl & Si & _).
  unfold mkv_find_all in H. destruct (ebml_run _ _ _ _ _) as [s|x] eqn:E; [|discriminate H]. cbn [bind] in H. apply ok_inj in H. injection H as <- <-. set (ins := in_groups [tracks; cluster]).
  assert (Ky : Forall (kinds find_opens (attachments :: leaves)) (looks ins 0 ms)).
  { apply looks_kinds; [exact F|now left|intros y Hy; now right|]. intros pos id w l I. unfold ins. cbn [in_groups]. destruct I as [<-|[<-|[<-|[]]]]; cbn [existsb beqb]; vm_compute; tauto. }
  set (L1 := looks ins 0 p1).
  assert (Lk : looks ins 0 ms = L1 ++ all_items p2) by (rewrite Ep, looks_app; unfold L1; f_equal; now apply looks_clusters).
  assert (Fn : Forall numbers (looks ins 0 ms)) by (eapply Forall_impl; [|exact Ky]; intros [id w n|id w d|b] X; try exact I; exact (proj2 X)).
  assert (NuL : numbered (looks ins 0 ms)) by (apply numbered_talks; unfold ins; rewrite looks_talk by exact F; now apply numbered_talks).
  destruct (msteps_run (looks ins 0 ms) Fn no_mains (or_intror NuL)) as (ma & Ema & _).
  assert (NbL : forall b, ~ In (Blk b) L1).
  { intros b Hb. unfold L1 in Hb. clear - Hb Nb1. revert Nb1 Hb. generalize 0. induction p1 as [|p p1 IH]; intros pos Nb1 Hb; [destruct Hb|]. cbn [looks] in Hb. rewrite in_app_iff in Hb. destruct Hb as [Hb|Hb].
    - apply (Nb1 b). rewrite all_cons. apply in_or_app. left. destruct p as [i|id w l]; cbn [look items_of] in *; [exact Hb|]. destruct (ins pos (Group id w l)); [exact Hb|]. destruct Hb as [Hb|[]]. discriminate Hb.
    - apply IH in Hb; [exact Hb|]. intros b' X. apply (Nb1 b'). rewrite all_cons. apply in_or_app. now right. }
  assert (Hm : forall X b Y m0, looks ins 0 ms = X ++ Blk b :: Y -> msteps no_mains X = Ok m0 -> get N.eqb (k_no b) (mm_strip m0) = Ok (header_of (k_no b) (all_items ms))).
  { intros X b Y m0 Ex Em. assert (Z : exists Z, X = L1 ++ Z /\ all_items p2 = Z ++ Blk b :: Y).
    { rewrite Lk in Ex. clear - Ex NbL. revert X Ex NbL. induction L1 as [|i L1 IH]; intros X Ex NbL; [exists X; now split|]. destruct X as [|j X]; cbn [app] in Ex; [injection Ex as -> _; exfalso; apply (NbL b); now left|]. injection Ex as <- Ex. destruct (IH X Ex) as (Z & -> & E2); [intros b' X'; apply (NbL b'); now right|]. exists Z. now split. }
    destruct Z as (Z & -> & E2). apply (mains_header (L1 ++ Z) (all_items ms) m0); [| | | |exact Em|].
    - rewrite Ex in Fn. now apply Forall_app in Fn.
    - intros x i y Exy A. apply (NuL x i (y ++ Blk b :: Y)); [|exact A]. rewrite Ex, Exy, <- app_assoc. reflexivity.
    - intros n. change (header_of n (L1 ++ Z) = header_of n (all_items ms)). rewrite removed_end by (rewrite E2 in Si; now apply Forall_app in Si). rewrite Ep, all_app, removed_end by exact Si. unfold header_of. rewrite <- (removed_talks n L1), <- (removed_talks n (all_items p1)). unfold L1, ins. now rewrite looks_talk.
    - intros n. rewrite Ep, all_app, !listed_app. intros [X|X]; [left|now destruct (Nl n)]. apply listed_talks. unfold L1, ins. rewrite looks_talk by exact F1. now apply listed_talks.
    - apply Bl. rewrite Ep, all_app, E2. apply in_or_app. right. apply in_elt. }
  destruct (parts_syn ms F) as (Ps & _).
  rewrite (run_items false false (fun s => f_done (fst s)) (find_both f) (fun s pos i => do x <- find' (map fst (snd s)) (fst s) pos i; Ok ((fst x, extra_step f (fst s) (snd s) (ek i pos)), snd x)) f (looks ins 0 ms) r) in E.
  2:{ rewrite encs_false, looks_bytes. exact Ef. } 2:exact Lr. 2:now apply looks_syn. 2:discriminate.
  2:{ intros X i Y a b s0 Ei Ea Eb. unfold find_both. rewrite (find_acts (map fst (snd s0)) f _ Ky X i Y a b (fst s0) Ei Ea Eb). destruct (find' _ _ _ _) as [x|e]; reflexivity. }
  apply (irun_inv false _ _ (fun X s => kept_all ts (f_tracks (fst s)) /\ (exists m0, msteps no_mains X = Ok m0 /\ rel m0 (f_main (fst s))) /\
    forall k t0 l o, get N.eqb k ts = Ok t0 -> get N.eqb k (snd s) = Ok l -> In o l -> exists x, In (o, x) (frames_at k 0 (looks ins 0 ms)) /\ starts (takeN (lenN (td_signature (m_td t0))) (as_sample (m_strip t0) (header_of k (all_items ms)) x)) (td_signature (m_td t0))) (looks ins 0 ms)) with (X := @nil item) in E; [| |reflexivity|].
  - destruct E as (Z & _ & _ & E). intros k t0 l o Gt G Ho. destruct (E k t0 l o Gt G Ho) as (x & Hx & Hs). exists x. split; [now apply (frames_looked k ins ms 0)|exact Hs].
  - clear E s. intros X i Y s x Ea (K & (m0 & Em0 & R) & P) H. bindinv H. rename v into y. apply ok_inj in H. subst x. cbn [fst snd].
    assert (Eb : f = encs false X ++ enc false i ++ (encs false Y ++ r)) by (rewrite Ef, <- (looks_bytes ins ms 0), <- encs_false, Ea, encs_app, encs_cons, <- !app_assoc; reflexivity). split; [|split].
    + pose proof (find_acts (map fst (snd s)) f _ Ky X i Y _ _ (fst s) Ea eq_refl Eb) as Fa. match type of Fa with _ = bind ?x _ => replace x with (Ok y) in Fa by (symmetry; exact E) end. cbn [bind] in Fa. exact (find_kept_all ts _ f (fst s) _ _ K Fa).
    + assert (Ei : exists m1, mstep m0 i = Ok m1) by (rewrite Ea, msteps_app, Em0 in Ema; cbn [bind msteps] in Ema; destruct (mstep m0 i) as [m1|e]; [now exists m1|discriminate Ema]). destruct Ei as (m1 & Ei). exists m1. split; [rewrite msteps_app, Em0; cbn [bind msteps]; rewrite Ei; reflexivity|].
      destruct i as [id w n|id w d|b]; [| |rewrite (find_mains_blk _ _ _ _ _ E); cbn [mstep] in Ei; apply ok_inj in Ei; subst m1; now apply rel_key].
      * exact (mstep_rel m0 (f_main (fst s)) _ m1 _ R Ei (find_mains _ _ _ _ _ E I)).
      * exact (mstep_rel m0 (f_main (fst s)) _ m1 _ R Ei (find_mains _ _ _ _ _ E I)).
    + intros k t0 l o Gt0 G Ho. destruct i as [id w n|id w d|b].
      * apply (P k t0 l o Gt0); [|exact Ho]. revert G. unfold extra_step. destruct (id_in _ _); now cbn [ek e_block].
      * apply (P k t0 l o Gt0); [|exact Ho]. revert G. unfold extra_step. destruct (id_in _ _); now cbn [ek e_block].
      * cbn [find'] in E. cbv zeta in E. bindinv E. rename v into t. rename E0 into Gt. bindinv E. rename v into st. rename E0 into Gs. cbn [mm_strip] in Gs. clear E.
        assert (Kk := K). apply (kept_all_key ts _ (k_no b)) in Kk. destruct Kk as (_ & Nk & Kk & _). assert (Nt : td_number (m_td t) = k_no b) by now apply Nk.
        assert (St : st = header_of (k_no b) (all_items ms)).
        { rewrite (get_with_key N.eqb N.eqb_eq) in Gs. destruct R as (_ & _ & R & _). pose proof (R _ _ (Hm X b Y m0 Ea Em0)) as R1. match type of Gs with context [match ?z with Ok _ => _ | Err _ => _ end] => replace z with (Ok (header_of (k_no b) (all_items ms))) in Gs by (symmetry; exact R1) end. now apply ok_inj in Gs. }
        unfold extra_step in G. destruct (id_in _ _); [now apply (P k t0 l o)|]. pose proof (blk_read f _ _ b Eb) as Rd. remember (ek (Blk b) (lenN (encs false X))) as e eqn:Ee. replace (e_block e) with (Some (mkB (k_no b) (map Z.of_N (map lenN (k_frames b))) (blk_head b) false)) in G by (now rewrite Ee). unfold extra_block in G. cbv zeta in G. cbn [b_track b_frames] in G. match type of G with context [match ?x with Ok _ => match ?y with Ok _ => _ | Err _ => _ end | Err _ => _ end] => replace x with (Ok t) in G by (symmetry; exact Gt); replace y with (Ok st) in G by (symmetry; exact Gs) end. destruct (searching t); [now apply (P k t0 l o)|]. rewrite Nt, Rd in G. cbn [fst] in G.
        match type of G with context [match ?x with Ok _ => _ | Err _ => _ end] => destruct x as [l0|] eqn:Gl end; [|now apply (P k t0 l o)]. destruct (N.eq_dec k (k_no b)) as [->|Nb]; [|rewrite (get_put_other N.eqb N.eqb_eq) in G by exact Nb; now apply (P k t0 l o)].
        rewrite (get_put_same N.eqb N.eqb_eq) in G. apply ok_inj in G. subst l. apply in_app_or in Ho as [Ho|Ho]; [now apply (P (k_no b) t0 l0 o)|].
        destruct (Kk _ _ Gt0) as (t1 & G1 & T1 & T2 & _). pose proof (ok_inj _ _ (eq_trans (eq_sym G1) Gt)) as E1. subst t1. rewrite T1, T2 in Ho.
        replace (concat (k_frames b)) with ([] ++ concat (k_frames b) ++ @nil byte) in Ho by (cbn [app]; apply app_nil_r). apply (extra_fits e _ _ _ (k_frames b) [] []) in Ho as (x & Hx & Sx). exists x. split.
        -- cbn [lenN] in Hx. rewrite N.add_0_r, Ee, blk_data in Hx. rewrite Ea, frames_app. apply in_or_app. right. cbn [frames_at]. rewrite N.eqb_refl. apply in_or_app. left. rewrite encs_false in Hx. exact Hx.
        -- revert Sx. rewrite St. unfold as_sample. generalize (header_of (k_no b) (all_items ms)) as hm. intros hm. destruct (list_eq_dec _ _ _) as [<-|Ne]; [rewrite beqb_refl|replace (beqb (m_strip t0) hm) with false by (destruct (beqb (m_strip t0) hm) eqn:Eq; [apply beqb_eq in Eq; contradiction|reflexivity])]; [cbn [lenN app]; now rewrite dropN_0|intros Sx; exact Sx].
  - cbn [fst snd]. split; [exact K0|]. split; [exists no_mains; split; [reflexivity|repeat split; auto]|]. intros k t0 l o _ G Ho. rewrite (C0 k l G) in Ho. destruct Ho.
Qed.
Theorem others_fit_are ap name big offset ps srs main ms fd ts0 cut0 cut ts c : mkv_ok ps -> mkv_srs ap name big offset (file_of ps) = Ok srs -> movie_ok main ms -> mkv_load_srs srs = Ok (fd, ts0, cut0) ->
  mkv_find_all (map (fun k => (k, [])) cut) ts0 main = Ok (ts, c) ->
  forall k l o, In (k, l) c -> In o l -> NoDup cut -> data_of k (all_items ps) <> [] -> exists t x, In (k, t) ts /\ 0 < m_offset t <= o /\ In (o, x) (frames_at k 0 (all_items ms)) /\
  starts (td_signature (m_td t)) (data_of k (all_items ps)) /\ starts (takeN (lenN (td_signature (m_td t))) (as_sample (header_of k (all_items ps)) (header_of k (all_items ms)) x)) (td_signature (m_td t)).
Proof.
  intros H E M El Ef k l o Il Ho Nc Hd. destruct (others_are ap name big offset ps srs main ms fd ts0 cut0 cut ts c H E M El Ef k l o Il Ho Nc) as (_ & t & It & Ot). specialize (Ot Hd).
  destruct (load_is ap name big offset ps srs H E) as (fd' & ts' & _ & _ & _ & _ & _ & _ & El' & _ & _ & _ & (Nd0 & Lo) & _). rewrite El in El'. apply ok_inj in El'. injection El' as -> <- _.
  assert (Kp0 : kept_all ts0 ts0).
  { split; [exact Nd0|]. split; [|split].
    - intros n u G. specialize (Lo n). rewrite G in Lo. destruct Lo as (_ & td & -> & T & _). exact T.
    - intros n t0 G. now exists t0.
    - intros n u e G G'. congruence. }
  pose proof (find_all_kept ts0 _ main ts c Kp0 Ef) as (Nd & Nu & Ke & Kn). assert (Kc : map fst c = cut) by (rewrite (find_all_keys _ ts0 main ts c Ef), map_map; apply map_id).
  destruct (get N.eqb k ts0) as [t0|e] eqn:G0; [|specialize (Lo k); rewrite G0 in Lo; exfalso; apply Hd, no_data; exact Lo].
  destruct (others_fit main ms ts0 (map (fun k => (k, [])) cut) ts c M Kp0) with (k := k) (t0 := t0) (l := l) (o := o) as (x & Hx & Sx).
  - intros k' l' G. apply (get_in N.eqb N.eqb_eq) in G. apply in_map_iff in G as (k2 & G & _). now injection G.
  - exact Ef.
  - exact G0.
  - apply (in_get N.eqb N.eqb_eq); [now rewrite Kc|exact Il].
  - exact Ho.
  - destruct (Ke k _ G0) as (t' & G' & K1 & K2 & _). apply (in_get N.eqb N.eqb_eq) in It; [|exact Nd]. pose proof (ok_inj _ _ (eq_trans (eq_sym G') It)) as Et. rewrite Et in K1, K2. specialize (Lo k). rewrite G0 in Lo. destruct Lo as (_ & td & E0 & _ & _ & _ & Sg & _). exists t, x. split; [now apply (get_in N.eqb N.eqb_eq)|]. split; [exact Ot|]. split; [exact Hx|]. rewrite K1. rewrite E0 in *. split; [exact Sg|exact Sx].
Qed.
