(** CreateFacts: what creating writes, and what editing leaves of the volumes. *)
From Verif Require Import Base BaseFacts Path PathSpec PathFacts Crc Rar RarSpec ReadSpec SrrSpec RecovSpec
  RecovFacts FsSpec SetSpec Srr FsFacts RarFacts ReadFacts ReadAllFacts SrrFacts EditFacts WriteFacts RebuildFacts.

Lemma check_raw c b r : check_block c b = Ok r -> r = b_raw b.
Proof.
  unfold check_block. destruct (b_kind b);
    try (destruct (b_type b =? T_RarFile); [discriminate|]; intros H; bindinv H; now apply ok_inj in H).
  destruct (negb _); [destruct c; [|discriminate]; intros H; now apply ok_inj in H|].
  intros H. bindinv H. now apply ok_inj in H.
Qed.
Lemma vblks_raw l : forall pos, concat (map b_raw (vblks pos l)) = ser_srr (map (fun i => SHead (fst i)) l).
Proof. induction l as [|i l IH]; intros pos; [reflexivity|]. cbn [vblks map concat]. now rewrite IH, ser_srr_cons. Qed.
Lemma volume_raw v : concat (map b_raw (volume_blocks v)) =
  ser_srr (SHead MARKER :: map (fun i => SHead (fst i)) (v_items v) ++ pad_item (v_pad v)).
Proof.
  unfold volume_blocks. rewrite map_app, concat_app, vblks_raw. cbn [map fst]. rewrite app_comm_cons, ser_srr_app. f_equal.
  unfold padblks, pad_item. destruct (v_pad v); [reflexivity|]. cbn [map concat b_raw]. now rewrite app_nil_r.
Qed.

Lemma vol_items_ok n v : sitem_ok (rar_item n) -> volume_ok v -> Forall sitem_ok (vol_items n v).
Proof.
  intros Hn (Hv & _ & Hp & _). unfold vol_items. constructor; [exact Hn|]. constructor; [exact (conj (proj1 (proj1 marker_ok)) (proj1 marker_ok))|].
  apply Forall_app. split; [|now apply pad_item_ok].
  rewrite Forall_map. eapply Forall_impl; [|exact Hv]. intros i [[H1 H2] _]. split; [exact H1|split; [exact H1|exact H2]].
Qed.
Lemma heads_recov l : forall b, recov_removed true b -> recov_removed true (map (fun i : item => SHead (fst i)) l ++ b).
Proof. induction l as [|i l IH]; intros b H; [exact H|]. cbn [map app recov_removed]. split; auto. Qed.
Lemma vol_items_recov n v b c : recov_removed false b -> recov_removed c (vol_items n v ++ b).
Proof.
  intros H. unfold vol_items. cbn [app rar_item recov_removed]. split; [reflexivity|]. rewrite <- app_assoc.
  apply heads_recov. unfold pad_item. destruct (v_pad v); cbn [app recov_removed]; now apply recov_mono.
Qed.

Lemma volume_bytes_inv c n v b : volume_ok v -> volume_bytes c (n, ser_volume v) = Ok b ->
  b = ser_srr (vol_items n v) /\ sitem_ok (rar_item n) /\ n <> [].
Proof.
  intros Hv H. unfold volume_bytes in H. cbn [fst snd] in H. bindinv H. apply rarfile_inv in E as (-> & Hok & Hne).
  rewrite read_all_volume in H by exact Hv. cbn [bind] in H. bindinv H. apply ok_inj in H. subst b.
  split; [|auto]. unfold vol_items. rewrite ser_srr_cons. f_equal. rewrite <- volume_raw. f_equal.
  apply mapR_inv in E. clear -E. induction E as [|x y l l' Hx _ IH]; [reflexivity|]. cbn [map]. f_equal; [now apply check_raw in Hx|exact IH].
Qed.

Definition set_files (vols : list (text * volume)) : list (text * bytes) :=
  map (fun nv => (fst nv, ser_volume (snd nv))) vols.
Definition set_items (vols : list (text * volume)) : list sitem :=
  concat (map (fun nv => vol_items (fst nv) (snd nv)) vols).

Lemma holds_neutral a l vs : Forall (fun i => neutral i = true) a -> holds_volumes l vs -> holds_volumes (a ++ l) vs.
Proof. induction 1; intros; cbn [app]; [assumption|]. constructor; auto. Qed.
Lemma holds_set vols l vs : holds_volumes l vs -> holds_volumes (set_items vols ++ l) (vols ++ vs).
Proof.
  intros H. induction vols as [|[n v] vols IH]; [exact H|]. unfold set_items. cbn [map concat fst snd app].
  rewrite <- app_assoc. now constructor.
Qed.

Theorem create_items an stores vols c osos srr :
  vols <> [] -> Forall (fun nv => volume_ok (snd nv)) vols ->
  create_srr an stores (set_files vols) c osos = Ok srr ->
  exists os, Forall2 (fun o i => exists size hash name v, o = (size, hash, name) /\
                         unhex 0 hash = Ok v /\ i = oso_item size v name) osos os /\
    let l := app_item an :: map stored_item stores ++ set_items vols ++ os in
    srr = ser_srr l /\ srr_ok l /\ holds_volumes l vols.
Proof.
  intros Hne Hv H. unfold create_srr in H. bindinv H. apply header_inv in E as [-> Ha].
  bindinv H. apply store_all_inv in E as [Hst Hsok]. bindinv H. bindinv H. apply ok_inj in H.
  apply mapR_inv in E. apply mapR_inv in E0.
  assert (Hvs : concat v0 = ser_srr (set_items vols) /\ Forall sitem_ok (set_items vols)).
  { clear -E Hv. unfold set_files, set_items in *. revert v0 E. induction Hv as [|[n v] vols Hv1 _ IH]; intros v0 E.
    - inversion E; subst. split; [reflexivity|constructor].
    - cbn [map fst snd] in *. inversion E as [|a b la lb E1 E2]; subst. apply volume_bytes_inv in E1 as (-> & Hok & _); [|exact Hv1].
      apply IH in E2 as [Ec Ef]. cbn [concat]. rewrite Ec, ser_srr_app. split; [reflexivity|].
      apply Forall_app. split; [now apply vol_items_ok|exact Ef]. }
  destruct Hvs as [Hvs Hvok].
  assert (Ho : exists os, Forall2 (fun o i => exists size hash name v, o = (size, hash, name) /\
                         unhex 0 hash = Ok v /\ i = oso_item size v name) osos os /\
                concat v1 = ser_srr os /\ Forall sitem_ok os).
  { clear -E0. induction E0 as [|[[sz hs] nm] b l l' Hx _ IH].
    - exists []. repeat constructor.
    - destruct IH as (os & A & B & C). apply oso_inv in Hx as (v & Hu & _ & -> & Hok).
      exists (oso_item sz v nm :: os). cbn [concat]. rewrite B, ser_srr_cons. split; [|split; [reflexivity|constructor; assumption]].
      constructor; [|exact A]. exists sz, hs, nm, v. auto. }
  destruct Ho as (os & Hos & Hob & Hook). exists os. split; [exact Hos|]. cbv zeta.
  assert (Hneut : Forall (fun i => neutral i = true) os).
  { clear -Hos. induction Hos as [|o i l l' (s & h & n & v & _ & _ & ->) _ IH]; constructor; auto. }
  split; [|split].
  - rewrite <- H, ser_srr_cons, !ser_srr_app. rewrite Hvs, Hob, Hst. reflexivity.
  - split; [repeat eexists|]. split; [|split].
    + constructor; [exact Ha|]. rewrite !Forall_app. auto.
    + cbn [app_item recov_removed]. apply recov_stored.
      { rewrite Forall_map. apply Forall_forall. reflexivity. }
      assert (Hr : recov_removed false os).
      { clear -Hneut. induction Hneut as [|i l Hi _ IH]; [exact I|]. destruct i; try discriminate Hi; exact IH. }
      clear -Hr. unfold set_items. induction vols as [|nv vols IH]; [exact Hr|]. cbn [map concat]. rewrite <- app_assoc.
      now apply vol_items_recov.
    + rewrite ser_srr_cons, !ser_srr_app, !lenN_app. destruct vols as [|nv vols]; [congruence|].
      unfold set_items. cbn [map concat]. unfold vol_items at 1. cbn [app]. rewrite !ser_srr_cons, !lenN_app.
      assert (7 <= lenN (ser_sitem (app_item an))) by (unfold ser_sitem; rewrite lenN_app, lenN_hdr; lia).
      assert (7 <= lenN (ser_sitem (SHead MARKER))) by (unfold ser_sitem; rewrite lenN_app, lenN_hdr; lia).
      assert (9 <= lenN (ser_sitem (rar_item (fst nv)))).
      { unfold ser_sitem. rewrite lenN_app, lenN_hdr. cbn [rar_item s_body]. unfold name_field. rewrite !lenN_app, lenN_le. lia. }
      lia.
  - constructor; [reflexivity|]. apply holds_neutral.
    { rewrite Forall_map. apply Forall_forall. reflexivity. }
    rewrite <- (app_nil_r vols) at 2. apply holds_set. rewrite <- (app_nil_r os). apply holds_neutral; [exact Hneut|constructor].
Qed.

(** creating succeeds *)
Lemma check_heads n v : Forall (fun i => known_type (fst i)) (v_items v) -> volume_ok v ->
  Forall (fun hd => exists p, rar_path (h_text (fst hd)) p) (pieces v) ->
  valid_text n -> n <> [] -> lenN (utf8 n) + 9 < 65536 ->
  volume_bytes false (n, ser_volume v) = Ok (ser_srr (vol_items n v)).
Proof.
  intros Hk Hv Hp Hn1 Hn2 Hn3. enough (exists b, volume_bytes false (n, ser_volume v) = Ok b) as (b & E).
  { rewrite E. f_equal. now apply volume_bytes_inv in E. }
  unfold volume_bytes. cbn [fst snd]. rewrite rarfile_ok by assumption. cbn [bind].
  rewrite read_all_volume by exact Hv. cbn [bind].
  assert (Hm : mapR (check_block false) (volume_blocks v) = Ok (map b_raw (volume_blocks v))).
  { apply mapR_ok. unfold volume_blocks. apply Forall_app. split.
    - assert (Hall : Forall (fun i => item_ok i /\ known_type (fst i) /\
                Forall (fun hd => exists p, rar_path (h_text (fst hd)) p) (piece_of i)) ((MARKER, []) :: v_items v)).
      { constructor; [split; [exact marker_ok|split; [left; cbn; lia|constructor]]|].
        destruct Hv as (Hok & _). unfold pieces in Hp. clear -Hk Hok Hp. induction (v_items v) as [|i l IH]; [constructor|].
        apply Forall_cons_iff in Hk as [K1 K2]. apply Forall_cons_iff in Hok as [O1 O2]. cbn [map concat] in Hp.
        apply Forall_app in Hp as [P1 P2]. constructor; auto. }
      generalize 0. clear -Hall. induction Hall as [|[hd d] l [Ho [Hk Hp]] _ IH]; intros pos; [constructor|].
      cbn [vblks]. constructor; [|apply IH]. clear -Ho Hk Hp. unfold check_block. cbn [fst] in *.
      unfold hblk. cbn [sblk b_kind s_kind b_raw].
      destruct hd as [h pk|h mark rs ds pk|crc fl ver rs ds pk extra|h dd|crc ty fl body dd].
      + cbn [head_kind file_info_of f_method f_name]. cbn [known_type] in Hk. rewrite Hk. change (48 =? COMPR_STORING) with true.
        cbn [negb]. apply Forall_inv in Hp. destruct Hp as (p & Hp). cbn [fst] in Hp. apply rar_os_file_name_spec in Hp. rewrite Hp. reflexivity.
      + reflexivity.
      + reflexivity.
      + reflexivity.
      + destruct Ho as [(_ & Hty & _) _]. cbn [fst] in Hty. cbn [In] in Hty. cbn [b_type s_ty head_ty].
        assert (R : forall k, b_kind k = KPlain \/ (exists a b, b_kind k = KVolume a b) \/ b_kind k = KEnd -> b_type k = ty -> is_recovery k = Ok None).
        { intros k Kk Kt. unfold is_recovery. rewrite Kt. unfold T_RarNewSub, T_RarOldRec.
          rewrite (proj2 (N.eqb_neq ty 122)), (proj2 (N.eqb_neq ty 120)) by lia.
          destruct Kk as [-> |[(a & b & ->)| ->]]; reflexivity. }
        assert (Kd : head_kind (HBlock crc ty fl body dd) = KPlain \/ (exists a b, head_kind (HBlock crc ty fl body dd) = KVolume a b) \/
                     head_kind (HBlock crc ty fl body dd) = KEnd).
        { cbn [head_kind]. destruct body; [now left|]. destruct (ty =? 115); [right; left; eauto|]. destruct (ty =? 123); auto. }
        rewrite R; [|exact Kd|reflexivity].
        cbn [b_type sblk s_ty head_ty]. unfold T_RarFile. replace (ty =? 116) with false by lia.
        destruct Kd as [-> |[(a & b & ->)| ->]]; reflexivity.
    - unfold padblks. destruct (v_pad v); [constructor|]. constructor; [|constructor]. reflexivity. }
  rewrite Hm. eexists. reflexivity.
Qed.

Theorem create_exists an stores vols :
  valid_text an -> lenN (utf8 an) < 65527 ->
  Forall (fun nd => storable (fst nd) /\ lenN (snd nd) < 4294967296) stores ->
  Forall (fun nv => (valid_text (fst nv) /\ fst nv <> [] /\ lenN (utf8 (fst nv)) + 9 < 65536) /\ store_volume (snd nv) /\
     Forall (fun hd => exists p, rar_path (h_text (fst hd)) p) (pieces (snd nv))) vols ->
  exists srr, create_srr an stores (set_files vols) false [] = Ok srr.
Proof.
  intros Ha1 Ha2 Hs Hv. unfold create_srr. rewrite header_ok by assumption. cbn [bind].
  rewrite (mapR_ok _ (fun nd => ser_sitem (stored_item nd))).
  2:{ eapply Forall_impl; [|exact Hs]. intros nd [H1 H2]. apply store_ok; [now apply storable_ok|exact H2]. }
  cbn [bind]. assert (E : exists x, mapR (volume_bytes false) (set_files vols) = Ok x).
  { clear -Hv. unfold set_files. induction Hv as [|[n v] vols ((A & B & C) & (D & E & _) & F) _ (x & IH)]; [eexists; reflexivity|].
    cbn [map fst snd mapR] in *. rewrite check_heads by assumption. cbn [bind]. rewrite IH. eexists. reflexivity. }
  destruct E as (x & ->). cbn [bind mapR]. eexists. reflexivity.
Qed.

(** ** Editing keeps the volumes *)
Lemma add_holds new l vs : Forall (fun i => neutral i = true) new -> holds_volumes l vs -> holds_volumes (add_items new l) vs.
Proof.
  intros Hn. induction 1 as [|i l vs Hi Hl IH|n v l vs Hl IH].
  - cbn [add_items]. rewrite <- (app_nil_r new). apply holds_neutral; [exact Hn|constructor].
  - cbn [add_items]. destruct i; try discriminate Hi; cbn [is_srar]; (constructor; [reflexivity|exact IH]).
  - unfold vol_items. cbn [app add_items rar_item is_srar]. apply holds_neutral; [exact Hn|]. now apply (hv_vol n v l vs).
Qed.
Lemma filter_id {A} (p : A -> bool) l : Forall (fun x => p x = true) l -> filter p l = l.
Proof. induction 1 as [|x l H _ IH]; [reflexivity|]. cbn [filter]. now rewrite H, IH. Qed.
Lemma vol_all (p : sitem -> bool) n v : (forall i, is_sapp i = false -> is_sstored i = false -> p i = true) ->
  Forall (fun i => p i = true) (vol_items n v).
Proof.
  intros H. unfold vol_items. constructor; [now apply H|]. constructor; [now apply H|]. apply Forall_app. split.
  - rewrite Forall_map. apply Forall_forall. intros i _. now apply H.
  - unfold pad_item. destruct (v_pad v); constructor; [now apply H|constructor].
Qed.
Lemma filter_holds (p : sitem -> bool) l vs :
  (forall i, is_sapp i = false -> is_sstored i = false -> p i = true) -> holds_volumes l vs -> holds_volumes (filter p l) vs.
Proof.
  intros Hp. induction 1 as [|i l vs Hi Hl IH|n v l vs Hl IH]; [constructor| |].
  - cbn [filter]. destruct (p i); [constructor; assumption|exact IH].
  - rewrite filter_app, (filter_id p (vol_items n v)) by now apply vol_all. now constructor.
Qed.
Lemma remove_holds names l vs : holds_volumes l vs -> holds_volumes (remove_items names l) vs.
Proof. apply filter_holds. intros i _ H. destruct i; try reflexivity. discriminate H. Qed.
Lemma rename_vol old new a : forall l, Forall (fun i => is_sstored i = false) a -> rename_items old new (a ++ l) = a ++ rename_items old new l.
Proof.
  induction a as [|i a IH]; intros l H; [reflexivity|]. apply Forall_cons_iff in H as [Hi H].
  destruct i; try discriminate Hi; cbn [app rename_items]; now rewrite IH.
Qed.
Lemma rename_holds old new l vs : holds_volumes l vs -> holds_volumes (rename_items old new l) vs.
Proof.
  induction 1 as [|i l vs Hi Hl IH|n v l vs Hl IH]; [constructor| |].
  - destruct i; try discriminate Hi; cbn [rename_items]; try (constructor; [reflexivity|exact IH]).
    destruct (text_dec name old); (constructor; [reflexivity|assumption]).
  - rewrite rename_vol; [now constructor|]. pose proof (vol_all (fun i => negb (is_sstored i)) n v) as X.
    eapply Forall_impl; [|apply X; intros i _ H; now rewrite H]. intros i H. now apply negb_true_iff.
Qed.
Lemma holds_app a vs : holds_volumes a vs -> forall b ws, holds_volumes b ws -> holds_volumes (a ++ b) (vs ++ ws).
Proof.
  induction 1 as [|i l vs Hi Hl IH|n v l vs Hl IH]; intros b ws Hb; cbn [app]; [exact Hb|constructor; auto|].
  rewrite <- app_assoc. apply hv_vol. now apply IH.
Qed.
Lemma merge_holds ls vss an : Forall2 holds_volumes ls vss -> holds_volumes (merge_items ls an) (concat vss).
Proof.
  intros H. unfold merge_items. constructor; [reflexivity|]. apply holds_neutral.
  - clear H. induction ls as [|l ls IH]; [constructor|]. cbn [map concat]. apply Forall_app. split; [|exact IH].
    apply Forall_forall. intros i Hi. apply filter_In in Hi as [_ Hi]. now destruct i.
  - induction H as [|l vs ls vss Hl _ IH]; [constructor|]. cbn [map concat]. apply holds_app; [|exact IH].
    apply filter_holds; [|exact Hl]. intros i H1 H2. now rewrite H1, H2.
Qed.

(** ** Reconstructing *)
Lemma Forall2_impl {A B} (Q R : A -> B -> Prop) l m : (forall a b, Q a b -> R a b) -> Forall2 Q l m -> Forall2 R l m.
Proof. induction 2; constructor; auto. Qed.
Lemma empty_name P o : opath [] (p_paths P) (p_out P) <> Ok o.
Proof.
  unfold opath. assert (E : srr_os_file_name [] = Err ValueError) by reflexivity. rewrite E. discriminate.
Qed.

Theorem reconstruct_volumes P f l vs outs :
  srr_ok l -> holds_volumes l vs -> p_part P = [] ->
  Forall (fun nv => store_volume (snd nv)) vs ->
  Forall2 (fun nv o => target (p_paths P) (normpath (p_out P)) (fst nv) o) vs outs -> NoDup outs ->
  Forall (fun o => fs_get f o = None) outs ->
  (p_extract P = true -> Forall (fun n => exists o, target (p_paths P) (normpath (p_out P)) n o /\ ~ In o outs) (stored_names l)) ->
  supplied (fun p => fs_get f (in_folder (p_in P) p)) None (concat (map (fun nv => pieces (snd nv)) vs)) ->
  exists s, reconstruct P (ser_srr l) f = (s, Continue) /\
    Forall2 (fun nv o => fs_get (s_fs s) o = Some (ser_volume (snd nv))) vs outs /\
    kept fs_get f (s_fs s) /\
    (forall q, ~ In q outs ->
       (p_extract P = true -> Forall (fun n => ~ target (p_paths P) (normpath (p_out P)) n q) (stored_names l)) ->
       fs_get (s_fs s) q = fs_get f q).
Proof.
  intros Hok Hl Hpart Hv Ho Hd Hfree Hst Hs. unfold reconstruct. rewrite read_all_srr by exact Hok.
  destruct (volumes_ok P (ser_srr l) f Hpart l vs Hl 0 (s_init f) None outs) as (s & c & E & I & V & K & O); auto.
  - split; [|reflexivity]. intros q d H. exact H.
  - eapply Forall2_impl; [|exact Ho]. intros nv o H. now apply opath_spec.
  - intros (o & Hn & _). now apply empty_name in Hn.
  - intros X. eapply Forall_impl; [|exact (Hst X)]. intros n (o & A & B). exists o. split; [now apply opath_spec|exact B].
  - exists s. split; [exact E|]. split; [exact V|]. split; [apply I|].
    intros q Hq Hx. apply O; [exact Hq|]. intros X. eapply Forall_impl; [|exact (Hx X)].
    intros n A B. apply A. now apply opath_spec.
Qed.
