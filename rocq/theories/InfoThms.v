(** InfoThms: the content hash of edited SRR files; files whose volumes collide. *)
From Coq Require Import Permutation Sorted.
From Verif Require Import Base BaseFacts Path Rar RarSpec ReadSpec SrrSpec SetSpec Srr Info InfoSpec InfoFacts CreateFacts RebuildThms Samples.

Theorem sizes_all lowf upf l vs :
  srr_ok l -> holds_volumes l vs -> Forall (fun nv => volume_ok (snd nv) /\ Forall rr_size_ok (v_items (snd nv))) vs ->
  NoDup (map (fun nv => basename (lowf (fst nv))) vs) ->
  exists i, info lowf upf (ser_srr l) = Ok i /\
  Forall2 (fun nv kr => fst kr = basename (lowf (fst nv)) /\ ri_name (snd kr) = fst nv /\ ri_size (snd kr) = lenN (ser_volume (snd nv))) vs (i_rars i).
Proof.
  intros H1 H2 H3 H4. destruct (listing_all lowf upf l vs H1 H2 H3 H4) as (i & E & F). exists i. split; [exact E|].
  clear - F. induction F as [|nv kr a b (K & N & S & _) F IH]; constructor; auto.
Qed.
Theorem created_sizes lowf upf an stores vols c osos srr :
  vols <> [] -> Forall (fun nv => volume_ok (snd nv) /\ Forall rr_size_ok (v_items (snd nv))) vols ->
  NoDup (map (fun nv => basename (lowf (fst nv))) vols) ->
  create_srr an stores (map (fun nv => (fst nv, ser_volume (snd nv))) vols) c osos = Ok srr ->
  exists i, info lowf upf srr = Ok i /\
  Forall2 (fun nv kr => fst kr = basename (lowf (fst nv)) /\ ri_name (snd kr) = fst nv /\ ri_size (snd kr) = lenN (ser_volume (snd nv))) vols (i_rars i).
Proof.
  intros Hn Hv Hd Hc. apply create_items in Hc as (os & _ & E & O & Hl); [|exact Hn|eapply Forall_impl; [|exact Hv]; intros nv H; apply H].
  rewrite E. apply sizes_all; assumption.
Qed.
Theorem sizes_last lowf upf l vs a n v b :
  srr_ok l -> holds_volumes l vs -> Forall (fun nv => volume_ok (snd nv) /\ Forall rr_size_ok (v_items (snd nv))) vs ->
  vs = a ++ (n, v) :: b -> (forall nv, In nv b -> basename (lowf (fst nv)) <> basename (lowf n)) ->
  exists i r, info lowf upf (ser_srr l) = Ok i /\ In (basename (lowf n), r) (i_rars i) /\ NoDup (map fst (i_rars i)) /\
    ri_name r = n /\ ri_size r = lenN (ser_volume v).
Proof.
  intros H1 H2 H3 H4 H5. destruct (listing_last lowf upf l vs H1 H2 H3 a n v b H4) as (i & r & E & G & N & S & _).
  { intros X. apply in_map_iff in X as (nv & X & Y). exact (H5 nv Y X). }
  destruct (listing_keys lowf upf l vs H1 H2 H3) as (i' & E' & D & _). rewrite E in E'. injection E' as <-.
  exists i, r. split; [exact E|]. split; [now apply get_in|]. split; [exact D|]. split; [exact N|exact S].
Qed.
Theorem hash_edits lowf upf l vs :
  srr_ok l -> holds_volumes l vs -> vs <> [] ->
  Forall (fun nv => volume_ok (snd nv) /\ Forall rr_size_ok (v_items (snd nv))) vs ->
  NoDup (map (fun nv => basename (lowf (fst nv))) vs) -> forall out,
  (exists names files, add_stored_files (ser_srr l) names files = Ok out) \/
  (exists names, remove_stored_files (ser_srr l) names = Ok out) \/
  (exists old new, rename_stored_file (ser_srr l) old new = Ok out) ->
  forall digest, exists h, content_hash lowf upf digest out = Ok h /\ content_hash lowf upf digest (ser_srr l) = Ok h.
Proof.
  intros H1 H2 H3 H4 H5 out Ho digest. destruct (edits_hold l vs H1 H2 H3) as (A & B & C).
  assert (X : exists l', out = ser_srr l' /\ srr_ok l' /\ holds_volumes l' vs).
  { destruct Ho as [(n & f & E)|[(n & E)|(o & n & E)]]; eauto. }
  destruct X as (l' & -> & O & Hl). destruct (content_same lowf upf l' l vs vs O H1 Hl H2 H4 H4 H5 (Permutation_refl _)) as (c & E1 & E2).
  exists (digest c). unfold content_hash. rewrite E1, E2. split; reflexivity.
Qed.

(** the samples *)
Lemma vols_ok : Forall (fun nv : text * volume => volume_ok (snd nv) /\ Forall rr_size_ok (v_items (snd nv)))
  [(str "CD1/a.rar", vol1); (str "CD1/a.r00", vol2)].
Proof. repeat apply Forall_cons; [split; [exact vol1_ok|]|split; [exact vol2_ok|]|constructor]; cbn; repeat apply Forall_cons; try exact I; constructor. Qed.
Lemma srr1_holds : holds_volumes srr1 [(str "CD1/a.rar", vol1); (str "CD1/a.r00", vol2)].
Proof.
  unfold srr1. do 3 (apply hv_skip; [reflexivity|]). apply hv_vol, hv_vol. apply hv_skip; [reflexivity|]. constructor.
Qed.
Definition srr_cds : list sitem :=
  app_item (str "pyReScene") :: vol_items (str "CD1/a.rar") vol1 ++ vol_items (str "CD2/a.rar") vol2.
Lemma srr_cds_ok : srr_ok srr_cds.
Proof.
  split; [|split; [|split]].
  - unfold srr_cds, app_item. eauto 8.
  - ok.
  - vm_compute. repeat split; intros; discriminate.
  - ok.
Qed.
Lemma srr_cds_holds : holds_volumes srr_cds [(str "CD1/a.rar", vol1); (str "CD2/a.rar", vol2)].
Proof.
  unfold srr_cds. apply hv_skip; [reflexivity|]. apply hv_vol. rewrite <- (app_nil_r (vol_items (str "CD2/a.rar") vol2)). apply hv_vol. constructor.
Qed.
Definition srr_cd2 : list sitem := app_item (str "pyReScene") :: vol_items (str "CD2/a.rar") vol2.
Lemma srr_cd2_ok : srr_ok srr_cd2.
Proof.
  split; [|split; [|split]].
  - unfold srr_cd2, app_item. eauto 8.
  - ok.
  - vm_compute. repeat split; intros; discriminate.
  - ok.
Qed.
Lemma srr_cd2_holds : holds_volumes srr_cd2 [(str "CD2/a.rar", vol2)].
Proof.
  unfold srr_cd2. apply hv_skip; [reflexivity|]. rewrite <- (app_nil_r (vol_items (str "CD2/a.rar") vol2)). apply hv_vol. constructor.
Qed.
