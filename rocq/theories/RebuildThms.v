(** RebuildThms: the theorems behind Props_Rebuild. *)
From Verif Require Import Base BaseFacts Path PathSpec PathFacts Crc Rar RarSpec ReadSpec SrrSpec RecovSpec
  RecovFacts FsSpec SetSpec Samples Srr FsFacts RarFacts ReadFacts ReadAllFacts SrrFacts EditFacts WriteFacts
  RebuildFacts CreateFacts.

Theorem round_trip an stores vols osos srr P f outs :
  vols <> [] -> Forall (fun nv => store_volume (snd nv)) vols ->
  create_srr an stores (map (fun nv => (fst nv, ser_volume (snd nv))) vols) false osos = Ok srr ->
  p_part P = [] ->
  Forall2 (fun nv o => target (p_paths P) (normpath (p_out P)) (fst nv) o) vols outs -> NoDup outs ->
  Forall (fun o => fs_get f o = None) outs ->
  (p_extract P = true ->
   Forall (fun n => exists o, target (p_paths P) (normpath (p_out P)) n o /\ ~ In o outs) (map fst stores)) ->
  supplied (fun p => fs_get f (in_folder (p_in P) p)) None (concat (map (fun nv => pieces (snd nv)) vols)) ->
  exists s, reconstruct P srr f = (s, Continue) /\
    Forall2 (fun nv o => fs_get (s_fs s) o = Some (ser_volume (snd nv))) vols outs /\
    (forall q d, fs_get f q = Some d -> fs_get (s_fs s) q = Some d) /\
    (forall q, ~ In q outs ->
       (p_extract P = true -> Forall (fun n => ~ target (p_paths P) (normpath (p_out P)) n q) (map fst stores)) ->
       fs_get (s_fs s) q = fs_get f q).
Proof.
  intros Hne Hv Hc Hp Ho Hd Hf Hst Hs.
  apply create_items in Hc; [|exact Hne|].
  2:{ eapply Forall_impl; [|exact Hv]. intros nv H. apply H. }
  destruct Hc as (os & Hos & -> & Hok & Hh).
  set (l := app_item an :: _) in *.
  assert (Hn : stored_names l = map fst stores).
  { unfold l. rewrite stored_names_cons. cbn [app_item app]. unfold stored_names. rewrite !map_app, !concat_app.
    assert (E1 : concat (map (fun i => match i with SStored _ _ n _ _ => [n] | _ => [] end) (map stored_item stores)) = map fst stores).
    { clear. induction stores as [|nd st IH]; [reflexivity|]. cbn [map concat stored_item app]. now rewrite IH. }
    assert (E2 : forall a, Forall (fun i => is_sstored i = false) a ->
       concat (map (fun i => match i with SStored _ _ n _ _ => [n] | _ => [] end) a) = []).
    { induction 1 as [|i a Hi _ IH]; [reflexivity|]. destruct i; try discriminate Hi; exact IH. }
    rewrite E1, !E2; [now rewrite !app_nil_r| |].
    - clear -Hos. induction Hos as [|o i lo li (s & h & n & v & _ & _ & ->) _ IH]; constructor; auto.
    - clear. induction vols as [|[n v] vols IH]; [constructor|]. unfold set_items. cbn [map concat]. apply Forall_app. split; [|exact IH].
      pose proof (vol_all (fun i => negb (is_sstored i)) n v) as X.
      eapply Forall_impl; [|apply X; intros i _ H; now rewrite H]. intros i H. now apply negb_true_iff. }
  destruct (reconstruct_volumes P f l vols outs) as (s & E & V & K & O); auto; [now rewrite Hn|].
  exists s. rewrite Hn in O. auto.
Qed.

Lemma holds_len l vs : holds_volumes l vs -> vs <> [] -> 16 <= lenN (ser_srr l).
Proof.
  induction 1 as [|i l vs Hi Hl IH|n v l vs Hl IH]; intros Hne; [congruence| |].
  - rewrite ser_srr_cons, lenN_app. specialize (IH Hne). lia.
  - unfold vol_items. cbn [app]. rewrite !ser_srr_cons, !lenN_app.
    assert (7 <= lenN (ser_sitem (SHead MARKER))) by (unfold ser_sitem; rewrite lenN_app, lenN_hdr; lia).
    assert (9 <= lenN (ser_sitem (rar_item n))).
    { unfold ser_sitem. rewrite lenN_app, lenN_hdr. cbn [rar_item s_body]. unfold name_field. rewrite !lenN_app, lenN_le. lia. }
    lia.
Qed.
Lemma holds_20 i l vs : is_sapp i = true -> holds_volumes (i :: l) vs -> vs <> [] -> 20 <= lenN (ser_srr (i :: l)).
Proof.
  intros Hi H Hne. inversion H as [|j m ws Hn Hl E1 E2|n v m ws Hl E1 E2]; subst.
  - rewrite ser_srr_cons, lenN_app. apply holds_len in Hl; [|exact Hne]. unfold ser_sitem. rewrite lenN_app, lenN_hdr. lia.
  - discriminate Hi.
Qed.

Lemma app_first l : srr_ok l -> exists i l', l = i :: l' /\ is_sapp i = true.
Proof. intros ((c & f & n & e & l' & ->) & _). exists (SApp c f n e), l'. auto. Qed.

Lemma stored_neutral files : Forall (fun i => neutral i = true) (map stored_item files).
Proof. rewrite Forall_map. apply Forall_forall. reflexivity. Qed.

Theorem edits_hold l vs : srr_ok l -> holds_volumes l vs -> vs <> [] ->
  (forall names files out, add_stored_files (ser_srr l) names files = Ok out ->
     exists l', out = ser_srr l' /\ srr_ok l' /\ holds_volumes l' vs) /\
  (forall names out, remove_stored_files (ser_srr l) names = Ok out ->
     exists l', out = ser_srr l' /\ srr_ok l' /\ holds_volumes l' vs) /\
  (forall old new out, rename_stored_file (ser_srr l) old new = Ok out ->
     exists l', out = ser_srr l' /\ srr_ok l' /\ holds_volumes l' vs).
Proof.
  intros Hok Hh Hne. destruct (app_first l Hok) as (i & l0 & El & Hi). split; [|split].
  - intros names files out H. pose proof H as H'. apply add_inv in H as (-> & _ & Hf); [|exact Hok].
    eexists. split; [reflexivity|]. split; [now apply add_items_srr_ok|]. apply add_holds; [apply stored_neutral|exact Hh].
  - intros names out H. pose proof (remove_holds names _ _ Hh) as Hr. rewrite (proj1 (remove_thm l names Hok)) in H. apply ok_inj in H. subst out.
    eexists. split; [reflexivity|]. split; [|exact Hr]. apply remove_items_srr_ok; [exact Hok|].
    subst l. unfold remove_items in *. cbn [filter] in *. destruct i; try discriminate Hi. cbn [named negb] in *.
    eapply holds_20; [|exact Hr|exact Hne]. reflexivity.
  - intros old new out H. pose proof (rename_holds old new _ _ Hh) as Hr.
    apply rename_inv in H as (_ & -> & a & c & f & d & e & b & Hl' & _ & E & Hok'); [|exact Hok].
    eexists. split; [reflexivity|]. split; [|exact Hr].
    assert (H20 : 20 <= lenN (ser_srr (rename_items old new l))).
    { subst l. destruct i; try discriminate Hi. cbn [rename_items] in *. eapply holds_20; [|exact Hr|exact Hne]. reflexivity. }
    rewrite E in *. rewrite Hl' in Hok. now apply (rename_srr_ok a c f old d e b new).
Qed.

Theorem merge_hold ls vss an out :
  Forall srr_ok ls -> Forall2 holds_volumes ls vss -> concat vss <> [] ->
  merge_srrs (map ser_srr ls) an = Ok out ->
  exists l', out = ser_srr l' /\ srr_ok l' /\ holds_volumes l' (concat vss).
Proof.
  intros Hok Hh Hne H. pose proof (merge_holds _ _ an Hh) as Hm. apply merge_inv in H as [-> Hs]; [|exact Hok].
  eexists. split; [reflexivity|]. split; [|exact Hm]. apply merge_srr_ok; auto.
  unfold merge_items. eapply holds_20; [|exact Hm|exact Hne]. reflexivity.
Qed.

(** ** Examples *)
Definition before_rr : bytes :=
  ser_head MARKER ++ ser_item (AHEAD, []) ++ ser_item (HFile (FHEAD 2 "a.txt" 5 0x11) 3, bstr "abc").
Definition volr : volume := mkVolume
  [(AHEAD, []); (HFile (FHEAD 2 "a.txt" 5 0x11) 3, bstr "abc"); (RRHEAD 1 2, rr_data 1 2 before_rr); (ENDHEAD, [])]
  (bstr "trailing").
Definition rset : list (text * volume) := [(str "CD1/a.rar", volr); (str "CD1/a.r00", vol2)].
Definition rfiles : list (text * bytes) := map (fun nv => (fst nv, ser_volume (snd nv))) rset.
Definition rstores : list (text * bytes) := [(str "a.nfo", bstr "info text")].
Definition rparm : rparams := mkParams (str "/in") (str "/out") true false false true [].
Definition rdisk : fs := [(str "/in/a.txt", bstr "abcde"); (str "/in/b.txt", []); (str "/out/other", bstr "x")].

Lemma volr_ok : volume_ok volr.
Proof.
  unfold volume_ok. cbn [v_items v_pad volr]. split; [|split; [|ok]].
  - constructor; [ok|]. constructor; [ok|]. constructor; [split; [cbn [fst]; ok|vm_compute; reflexivity]|]. ok.
  - exists (firstn 3 (v_items volr)), (ENDHEAD, []). cbn [firstn v_items volr].
    split; [reflexivity|]. split; [repeat (constructor; [reflexivity|]); constructor|]. now right.
Qed.
Lemma rset_store : Forall (fun nv => store_volume (snd nv)) rset.
Proof.
  constructor; [|constructor; [|constructor]]; cbn [snd].
  - split; [exact volr_ok|]. split.
    + repeat (constructor; [cbn; lia || exact I || reflexivity|]). constructor.
    + cbn [recovs_right v_items volr]. split; [exact I|]. split; [exact I|]. split; [|split; exact I].
      left. cbn [fst RRHEAD snd]. split; [reflexivity|]. split; [vm_compute; discriminate|]. vm_compute. reflexivity.
  - split; [exact vol2_ok|]. split.
    + repeat (constructor; [cbn; lia || exact I || reflexivity|]). constructor.
    + repeat split.
Qed.

Lemma rset_example :
  Forall (fun nv => store_volume (snd nv)) rset /\
  (exists srr, create_srr (str "app") rstores rfiles false [] = Ok srr /\
   exists s, reconstruct rparm srr rdisk = (s, Continue) /\
     fs_get (s_fs s) (str "/out/CD1/a.rar") = Some (ser_volume volr) /\
     fs_get (s_fs s) (str "/out/CD1/a.r00") = Some (ser_volume vol2)) /\
  Forall2 (fun nv o => target true (normpath (str "/out")) (fst nv) o) rset
    [str "/out/CD1/a.rar"; str "/out/CD1/a.r00"] /\
  supplied (fun p => fs_get rdisk (in_folder (p_in rparm) p)) None (concat (map (fun nv => pieces (snd nv)) rset)).
Proof.
  assert (Hs : supplied (fun p => fs_get rdisk (in_folder (p_in rparm) p)) None (concat (map (fun nv => pieces (snd nv)) rset))).
  { change (concat (map (fun nv => pieces (snd nv)) rset)) with
      [(FHEAD 2 "a.txt" 5 0x11, bstr "abc"); (FHEAD 1 "a.txt" 5 0x22, bstr "de"); (FHEAD 0 "b.txt" 0 0, @nil byte)].
    apply (sup_new _ _ _ _ (bstr "de")); [intros; discriminate| |].
    - change (content_of _ _ _) with (exists p, rar_path (str "a.txt") p /\
         fs_get rdisk (in_folder (p_in rparm) p) = Some (bstr "abcde") /\ (5 = 5 \/ 5 = 0xFFFFFFFF \/ 5 = 0xFFFFFFFFFFFFFFFF)).
      exists (str "a.txt"). split; [apply rar_os_file_name_spec; reflexivity|]. split; [reflexivity|now left].
    - apply (sup_cont _ (str "a.txt") [] (FHEAD 1 "a.txt" 5 0x22) (bstr "de")); [reflexivity|].
      apply (sup_new _ _ _ _ []); [|  |constructor].
      + intros n r E. apply some_inj in E. injection E as <- <-. discriminate.
      + change (content_of _ _ _) with (exists p, rar_path (str "b.txt") p /\
         fs_get rdisk (in_folder (p_in rparm) p) = Some [] /\ (0 = 0 \/ 0 = 0xFFFFFFFF \/ 0 = 0xFFFFFFFFFFFFFFFF)).
        exists (str "b.txt"). split; [apply rar_os_file_name_spec; reflexivity|]. split; [reflexivity|now left]. }
  assert (Ht : Forall2 (fun nv o => target true (normpath (str "/out")) (fst nv) o) rset
    [str "/out/CD1/a.rar"; str "/out/CD1/a.r00"]).
  { constructor; [|constructor; [|constructor]]; apply (opath_spec _ true (str "/out")); reflexivity. }
  split; [exact rset_store|]. split; [|split; [exact Ht|exact Hs]].
  destruct (create_exists (str "app") rstores rset) as (srr & E).
  - vm_compute. discriminate.
  - vm_compute. reflexivity.
  - constructor; [|constructor]. split; [|vm_compute; reflexivity]. unfold storable. cbn [fst].
    split; [vm_compute; discriminate|]. split; [discriminate|]. split; [|vm_compute; reflexivity]. ok.
  - pose proof rset_store as St. apply Forall_cons_iff in St as [S1 St]. apply Forall_cons_iff in St as [S2 _].
    constructor; [|constructor; [|constructor]]; (split; [split; [vm_compute; discriminate|split; [discriminate|vm_compute; reflexivity]]|]); (split; [assumption|]).
    + constructor; [|constructor]. exists (str "a.txt"). apply rar_os_file_name_spec. reflexivity.
    + constructor; [|constructor; [|constructor]]; [exists (str "a.txt")|exists (str "b.txt")]; apply rar_os_file_name_spec; reflexivity.
  - exists srr. split; [exact E|].
    destruct (round_trip (str "app") rstores rset [] srr rparm rdisk [str "/out/CD1/a.rar"; str "/out/CD1/a.r00"]) as (s & Er & V & _); auto.
    + discriminate.
    + exact rset_store.
    + repeat (constructor; [cbn [In]; intuition discriminate|]). constructor.
    + intros _. constructor; [|constructor]. exists (str "/out/a.nfo"). split; [apply opath_spec; reflexivity|].
      cbn [In]. intuition discriminate.
    + exists s. split; [exact Er|]. inversion V as [|? ? ? ? V1 V2]; subst. inversion V2 as [|? ? ? ? V3 V4]; subst. auto.
Qed.

Definition volx : volume := mkVolume [(AHEAD, []); (HBlock 1 0x7C 0 (bstr "?") [], []); (ENDHEAD, [])] [].
Lemma volx_ok : volume_ok volx.
Proof.
  unfold volume_ok. cbn [v_items v_pad volx]. split; [ok|split; [|ok]].
  exists (firstn 2 (v_items volx)), (ENDHEAD, []). cbn [firstn v_items volx].
  split; [reflexivity|]. split; [ok|]. now left.
Qed.
Lemma other_block_lost : exists v srr P f s d,
  volume_ok v /\ create_srr [] [] [(str "x.rar", ser_volume v)] false [] = Ok srr /\
  reconstruct P srr f = (s, Continue) /\ fs_get (s_fs s) (str "/out/x.rar") = Some d /\ d <> ser_volume v.
Proof.
  exists volx, (ser_srr (app_item [] :: vol_items (str "x.rar") volx)), (mkParams (str "/in") (str "/out") true false false false []), [].
  exists (fst (reconstruct (mkParams (str "/in") (str "/out") true false false false [])
            (ser_srr (app_item [] :: vol_items (str "x.rar") volx)) [])).
  exists (ser_head MARKER ++ ser_head AHEAD ++ ser_head ENDHEAD).
  split; [exact volx_ok|]. split; [vm_compute; reflexivity|]. split; [vm_compute; reflexivity|]. split; [vm_compute; reflexivity|].
  vm_compute. discriminate.
Qed.

(** an SRR file of an older version: the recovery data is in it *)
Definition volq : volume := mkVolume [(AHEAD, []); (RRHEAD 1 1, rr_data 1 1 (ser_head MARKER ++ ser_head AHEAD)); (ENDHEAD, [])] [].
Lemma volq_ok : store_volume volq.
Proof.
  split; [|split].
  - unfold volume_ok. cbn [v_items v_pad volq]. split; [ok|split; [|ok]].
    exists (firstn 2 (v_items volq)), (ENDHEAD, []). cbn [firstn v_items volq].
    split; [reflexivity|]. split; [ok|]. now left.
  - repeat constructor; cbn; lia.
  - cbn [recovs_right v_items volq recov_right fst snd AHEAD RRHEAD ENDHEAD]. split; [exact I|]. split; [|now split]. left. split; [reflexivity|]. split; [vm_compute; discriminate|]. reflexivity.
Qed.
Lemma old_srr_short : exists v P f s d,
  store_volume v /\ reconstruct P (ser_sitem (app_item []) ++ ser_sitem (SRar 0x7171 0 (str "x.rar") []) ++ ser_volume v) f = (s, Continue) /\
  fs_get (s_fs s) (str "/out/x.rar") = Some d /\ lenN d < lenN (ser_volume v).
Proof.
  exists volq, (mkParams (str "/in") (str "/out") true false false false []), [].
  exists (fst (reconstruct (mkParams (str "/in") (str "/out") true false false false [])
    (ser_sitem (app_item []) ++ ser_sitem (SRar 0x7171 0 (str "x.rar") []) ++ ser_volume volq) [])), (ser_head MARKER ++ ser_head AHEAD ++ ser_head (RRHEAD 1 1) ++ ser_head ENDHEAD).
  split; [exact volq_ok|]. split; [vm_compute; reflexivity|]. split; [vm_compute; reflexivity|]. vm_compute. reflexivity.
Qed.
