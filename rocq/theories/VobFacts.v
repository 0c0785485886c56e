(** VobFacts: proofs about the SRR files of samples. *)
From Verif Require Import Base BaseFacts Path PathSpec PathFacts Crc Rar RarSpec ReadSpec SrrSpec RecovSpec RecovFacts FsSpec SetSpec Srr FsFacts RarFacts ReadFacts ReadAllFacts SrrFacts EditFacts WriteFacts RebuildFacts CreateFacts GlobFacts Disk DiskSpec DiskFacts Media WorkDirSpec Vob VobSpec.
From Verif Require CmdFacts.

Lemma single_items an n v : volume_ok v -> sitem_ok (app_item an) -> sitem_ok (rar_item n) ->
  let l := app_item an :: vol_items n v in srr_ok l /\ holds_volumes l [(n, v)] /\ stored_names l = [].
Proof.
  intros Hv Ha Hn l. split.
  - split; [repeat eexists|]. split; [|split].
    + constructor; [exact Ha|now apply vol_items_ok].
    + unfold l. cbn [app_item recov_removed]. rewrite <- (app_nil_r (vol_items n v)). apply vol_items_recov. exact I.
    + unfold l. rewrite ser_srr_cons, lenN_app. unfold vol_items. rewrite !ser_srr_cons, !lenN_app.
      assert (7 <= lenN (ser_sitem (app_item an))) by (unfold ser_sitem; rewrite lenN_app, lenN_hdr; lia).
      assert (7 <= lenN (ser_sitem (SHead MARKER))) by (unfold ser_sitem; rewrite lenN_app, lenN_hdr; lia).
      assert (9 <= lenN (ser_sitem (rar_item n))).
      { unfold ser_sitem. rewrite lenN_app, lenN_hdr. cbn [rar_item s_body]. unfold name_field. rewrite !lenN_app, lenN_le. lia. }
      lia.
  - split; [constructor; [reflexivity|]; rewrite <- (app_nil_r (vol_items n v)); constructor; constructor|].
    unfold l, vol_items, pad_item. unfold stored_names. cbn [app_item rar_item concat map app]. rewrite map_app, concat_app. rewrite map_map.
    destruct (v_pad v); cbn [map concat app]; rewrite app_nil_r; induction (v_items v) as [|i it IH]; cbn; auto.
Qed.
Lemma append_set f p a b q : fs_get (fs_append (fs_set f p a) p b) q = if teqb p q then Some (a ++ b) else fs_get f q.
Proof.
  unfold fs_append. rewrite fs_get_set_same, !fs_get_set. destruct (teqb p q); reflexivity.
Qed.
Lemma append_get f p a b q : fs_get f p = Some a -> fs_get (fs_append f p b) q = if teqb p q then Some (a ++ b) else fs_get f q.
Proof. intros H. unfold fs_append. now rewrite H, fs_get_set. Qed.
(** the file that is made *)
Lemma create_single_ok an srr n tmp f v : valid_text an -> lenN (utf8 an) < 65527 -> valid_text (basename n) -> basename n <> [] -> lenN (utf8 (basename n)) + 9 < 65536 ->
  volume_ok v -> tmp <> n -> fs_get f srr = None -> fs_get f n = Some (ser_volume v) ->
  exists f' l, create_single an srr n tmp f = (Ok true, f') /\ fs_get f' tmp = Some (ser_srr l) /\ srr_ok l /\ holds_volumes l [(basename n, v)] /\ stored_names l = [] /\ forall q, q <> tmp -> fs_get f' q = fs_get f q.
Proof.
  intros A1 A2 N1 N2 N3 V T Es En. unfold create_single. unfold isfile. rewrite Es, header_ok by assumption. cbv zeta. rewrite fs_get_set_other by auto. rewrite En, rarfile_ok by assumption.
  rewrite read_all_volume by exact V. eexists. exists (app_item an :: vol_items (basename n) v). split; [reflexivity|]. split.
  - rewrite (append_get _ _ (ser_sitem (app_item an) ++ ser_sitem (rar_item (basename n)))); [|now rewrite append_set, teqb_refl].
    rewrite teqb_refl, volume_raw. unfold vol_items. rewrite !ser_srr_cons, <- !app_assoc. reflexivity.
  - assert (Ha : sitem_ok (app_item an)) by (apply (header_inv an (ser_sitem (app_item an))); now apply header_ok).
    assert (Hn : sitem_ok (rar_item (basename n))) by (apply (rarfile_inv (basename n) (ser_sitem (rar_item (basename n)))); now apply rarfile_ok).
    destruct (single_items an (basename n) v V Ha Hn) as (X & Y & Z). split; [exact X|]. split; [exact Y|]. split; [exact Z|].
    intros q Q. assert (E : teqb tmp q = false) by (apply teqb_neq; congruence).
    rewrite (append_get _ _ (ser_sitem (app_item an) ++ ser_sitem (rar_item (basename n)))); [|now rewrite append_set, teqb_refl]. now rewrite E, append_set, E.
Qed.
(** what is there stays *)
Lemma create_single_keeps an srr n tmp f r f' : create_single an srr n tmp f = (r, f') -> (forall q, q <> tmp -> fs_get f' q = fs_get f q) /\
  (forall b, r = Ok b -> fs_get f srr = None -> exists h x data bs, b = true /\ srr_header_bytes an = Ok h /\ rarfile_bytes (basename n) = Ok x /\ fs_get (fs_set f tmp h) n = Some data /\ read_all data = Ok bs /\
     fs_get f' tmp = Some (h ++ x ++ concat (map b_raw bs))).
Proof.
  unfold create_single, isfile. cbv zeta. destruct (fs_get f srr) eqn:Es; [intros E; apply pair_equal_spec in E as [<- <-]; split; [reflexivity|discriminate]|].
  destruct (srr_header_bytes an) as [h|e] eqn:Eh; [|intros E; apply pair_equal_spec in E as [<- <-]; split; [intros q Q; apply fs_get_set_other; auto|discriminate]].
  destruct (fs_get (fs_set f tmp h) n) as [data|] eqn:En.
  2:{ intros E; apply pair_equal_spec in E as [<- <-]. split; [|discriminate]. intros q Q. rewrite fs_get_del, fs_get_set. destruct (teqb tmp q) eqn:T; [apply teqb_eq in T; congruence|reflexivity]. }
  destruct (rarfile_bytes (basename n)) as [x|e] eqn:Ex; [|intros E; apply pair_equal_spec in E as [<- <-]; split; [intros q Q; apply fs_get_set_other; auto|discriminate]].
  destruct (read_all data) as [bs|e] eqn:Er; intros E; apply pair_equal_spec in E as [<- <-].
  - split.
    + intros q Q. assert (T : teqb tmp q = false) by (apply teqb_neq; congruence). rewrite (append_get _ _ (h ++ x)); [|now rewrite append_set, teqb_refl]. now rewrite T, append_set, T.
    + intros b X _. injection X as <-. exists h, x, data, bs. rewrite (append_get _ _ (h ++ x)); [|now rewrite append_set, teqb_refl]. rewrite teqb_refl, app_assoc. repeat (split; [reflexivity || assumption|]). reflexivity.
  - split; [|discriminate]. intros q Q. assert (T : teqb tmp q = false) by (apply teqb_neq; congruence). now rewrite append_set, T.
Qed.
Lemma tmp_other rnd d : d ++ str "-" ++ rnd ++ str ".tmp" <> d.
Proof. intros E. rewrite <- (app_nil_r d) in E at 2. apply app_inv_head in E. discriminate E. Qed.
Lemma replaced tmp dest f new : tmp <> dest -> fs_get f tmp = Some new -> exists f' w, replace_result tmp dest f [] = (f', w, Done) /\
  fs_get f' dest = Some new /\ fs_get f' tmp = None /\ forall q, q <> tmp -> q <> dest -> fs_get f' q = fs_get f q.
Proof.
  intros N G. destruct (CmdFacts.replace_calm tmp dest f [] new (Forall_nil _) N G) as (f' & w & _ & E). exists f', w. split; [exact E|].
  destruct (replace_thm tmp dest f [] f' w Done new N G E) as (U & [(_ & A & B)|[(R & _)|(R & _)]]); try congruence.
  split; [exact A|]. split; [exact B|]. intros q Q1 Q2. apply U. intros [X|[X|[]]]; congruence.
Qed.
Lemma srs_base x : base (x ++ str ".srs") = x.
Proof. unfold base. rewrite rev_app_distr. cbn. apply rev_involutive. Qed.
Lemma vob_end a : ends_with (a ++ str ".vob") (str ".vob") = true.
Proof. unfold ends_with. rewrite rev_app_distr. reflexivity. Qed.
Lemma vob_named a : basename (a ++ str ".vob") <> [].
Proof.
  unfold basename. rewrite rev_app_distr. change (rev (str ".vob")) with [98; 111; 118; 46]. cbn [app split_tail]. change (98 =? SLASH) with false. cbv iota.
  match goal with |- context [let '(_, _) := ?X in _] => destruct X as [x y] end. cbn [fst rev]. intros E. apply app_eq_nil in E. destruct E as [_ E]. discriminate E.
Qed.
Lemma starts_app p : forall t, starts_with Byte.eqb p (p ++ t) = true.
Proof. induction p as [|x p IH]; intros t; [reflexivity|]. cbn [app starts_with]. rewrite IH. destruct x; reflexivity. Qed.
Lemma place_second d b name : folder d -> ~ In 47 b -> ~ In 47 name -> pjoin (dirname (d ++ [47] ++ b ++ str ".srs")) (name ++ str ".srr") = d ++ [47] ++ name ++ str ".srr".
Proof.
  intros (a & x & -> & X) B N.
  assert (E : dirname (((a ++ [x]) ++ [47]) ++ (b ++ str ".srs")) = a ++ [x]).
  { destruct (base_dir ((a ++ [x]) ++ [47]) (b ++ str ".srs")) as [_ ->]; [right; now exists (a ++ [x])| |].
    - intros I. apply in_app_iff in I. destruct I as [I|I]; [contradiction|]. vm_compute in I. repeat (destruct I as [I|I]; [discriminate|]). exact I.
    - unfold strip_dir. assert (F : forallb (N.eqb SLASH) ((a ++ [x]) ++ [47]) = false).
      { apply Bool.not_true_iff_false. intros H. rewrite forallb_forall in H. assert (I : In x ((a ++ [x]) ++ [47])) by (apply in_or_app; left; apply in_or_app; right; now left).
        apply H in I. apply N.eqb_eq in I. unfold SLASH in I. congruence. }
      rewrite F. unfold rstrip_slash. rewrite !rev_app_distr. cbn [rev app drop_slashes]. change (47 =? SLASH) with true. cbv iota. destruct (N.eqb_spec x SLASH) as [Y|Y]; [contradiction|].
      cbn [rev]. now rewrite rev_involutive. }
  rewrite (app_assoc (a ++ [x])), E. unfold pjoin.
  assert (F : first_is SLASH (name ++ str ".srr") = false). { destruct name as [|c name]; [reflexivity|]. cbn. apply N.eqb_neq. intros ->. apply N. now left. }
  rewrite F. assert (G : (lenN (a ++ [x]) =? 0) || last_is SLASH (a ++ [x]) = false).
  { unfold last_is. rewrite rev_app_distr. cbn [rev app first_is]. rewrite lenN_app. cbn [lenN]. change SLASH with 47. lia. }
  rewrite G. reflexivity.
Qed.
Lemma place_is get srs name dest : vob_place get srs name dest ->
  dest = (if match get (base srs ++ str ".srr") with Some _ => true | None => false end then pjoin (dirname srs) (name ++ str ".srr") else base srs ++ str ".srr") /\ get dest = None /\ srs <> [].
Proof.
  intros (d & b & D & B & N & -> & G & E). rewrite (place_second d b name D B N). replace (d ++ [47] ++ b ++ str ".srs") with ((d ++ [47] ++ b) ++ str ".srs") by now rewrite <- !app_assoc.
  rewrite srs_base. replace ((d ++ [47] ++ b) ++ str ".srr") with (d ++ [47] ++ b ++ str ".srr") by now rewrite <- !app_assoc. split; [|split; [exact G|]].
  - destruct E as [-> |(E & ->)]; [now rewrite G|]. destruct (get (d ++ [47] ++ b ++ str ".srr")); [reflexivity|congruence].
  - intros X. apply app_eq_nil in X. destruct X as [_ X]. discriminate X.
Qed.
Theorem vob_thm an rnd sample srs name sig f have v dest :
  valid_text an -> lenN (utf8 an) < 65527 -> valid_text (basename sample) -> lenN (utf8 (basename sample)) + 9 < 65536 ->
  rared_vob sample sig -> volume_ok v -> fs_get f sample = Some (ser_volume v) -> vob_place (fs_get f) srs name dest -> fs_get f (dest ++ str "-" ++ rnd ++ str ".tmp") = None ->
  exists f' l, vob_srr an rnd sample srs (Some (name, sig)) f have = Ok (f', have ++ [dest]) /\ fs_get f' dest = Some (ser_srr l) /\
    srr_ok l /\ holds_volumes l [(basename sample, v)] /\ stored_names l = [] /\ forall q, q <> dest -> fs_get f' q = fs_get f q.
Proof.
  intros A1 A2 B1 B2 ((a & Es) & (t & ->)) V Gs P Gt. destruct (place_is _ _ _ _ P) as (Ed & Gd & Ns).
  unfold vob_srr. destruct srs as [|c0 srs0] eqn:Esrs; [congruence|]. rewrite <- Esrs in *. rewrite Es, vob_end, starts_app. rewrite <- Es. cbv zeta.
  set (dd := if isfile f (base srs ++ str ".srr") then _ else _). assert (dd = dest) as -> by (symmetry; exact Ed).
  unfold isfile at 1. rewrite Gd. unfold create_temp_file_name, isfile. rewrite Gt. cbn [bind]. set (tmp := dest ++ str "-" ++ rnd ++ str ".tmp") in *.
  assert (Nb : basename sample <> []).
  { rewrite Es. apply vob_named. }
  destruct (create_single_ok an dest sample tmp f v A1 A2 B1 Nb B2 V) as (f1 & l & E1 & G1 & S & H & Sn & O); [congruence|exact Gd|exact Gs|].
  rewrite E1. destruct (replaced tmp dest f1 (ser_srr l) (tmp_other rnd dest) G1) as (f2 & w & E2 & G2 & G3 & O2). rewrite E2.
  exists f2, l. split; [reflexivity|]. split; [exact G2|]. split; [exact S|]. split; [exact H|]. split; [exact Sn|]. intros q Q.
  destruct (teqb q tmp) eqn:T; [apply teqb_eq in T; subst q; congruence|]. apply teqb_neq in T. rewrite O2 by assumption. now apply O.
Qed.
(** whatever is given *)
Theorem keeps_thm an rnd sample srs info f have f' have' : vob_srr an rnd sample srs info f have = Ok (f', have') ->
  (forall q d, fs_get f q = Some d -> fs_get f' q = Some d) /\
  (have' = have \/ exists dest d, have' = have ++ [dest] /\ fs_get f dest = None /\ fs_get f' dest = Some d /\ forall q, q <> dest -> fs_get f' q = fs_get f q).
Proof.
  unfold vob_srr. assert (S : Ok (f, have) = Ok (f', have') -> (forall q d, fs_get f q = Some d -> fs_get f' q = Some d) /\
    (have' = have \/ exists dest d, have' = have ++ [dest] /\ fs_get f dest = None /\ fs_get f' dest = Some d /\ forall q, q <> dest -> fs_get f' q = fs_get f q)).
  { intros E. injection E as <- <-. split; [auto|now left]. }
  destruct srs as [|c0 srs0] eqn:Esrs; [exact S|]. rewrite <- Esrs. destruct (ends_with sample (str ".vob")); [|exact S]. destruct info as [[name sig]|]; [|exact S].
  destruct (starts_with Byte.eqb (bstr "Rar!") sig); [|exact S]. cbv zeta. set (dest := if isfile f (base srs ++ str ".srr") then _ else _).
  destruct (isfile f dest) eqn:Gd; [exact S|]. unfold isfile in Gd. destruct (fs_get f dest) eqn:Gd'; [discriminate|]. clear Gd.
  unfold create_temp_file_name. set (tmp := dest ++ str "-" ++ rnd ++ str ".tmp"). destruct (isfile f tmp) eqn:Gt; [discriminate|]. unfold isfile in Gt. destruct (fs_get f tmp) eqn:Gt'; [discriminate|]. clear Gt.
  cbn [bind]. destruct (create_single an dest sample tmp f) as [r f1] eqn:Ec. destruct (create_single_keeps _ _ _ _ _ _ _ Ec) as (K & M). destruct r as [b|e].
  - destruct (M b eq_refl Gd') as (h & x & data & bs & _ & _ & _ & _ & _ & G1). destruct (replaced tmp dest f1 _ (tmp_other rnd dest) G1) as (f2 & w & E2 & G2 & G3 & O2). rewrite E2.
    intros E. injection E as <- <-. assert (O : forall q, q <> dest -> fs_get f2 q = fs_get f q).
    { intros q Q. destruct (teqb q tmp) eqn:T; [apply teqb_eq in T; subst q; congruence|]. apply teqb_neq in T. rewrite O2 by assumption. now apply K. }
    split; [|right; eauto 6]. intros q d G. destruct (teqb q dest) eqn:T; [apply teqb_eq in T; subst q; congruence|]. apply teqb_neq in T. now rewrite O.
  - intros E. injection E as <- <-. split; [|now left]. intros q d G. destruct (teqb q tmp) eqn:T; [apply teqb_eq in T; subst q; congruence|]. apply teqb_neq in T. now rewrite K.
Qed.
(** and the sample can be made from it *)
Theorem rebuild_thm P g l n v o : srr_ok l -> holds_volumes l [(n, v)] -> stored_names l = [] -> p_part P = [] -> store_volume v -> target (p_paths P) (normpath (p_out P)) n o -> fs_get g o = None ->
  supplied (fun p => fs_get g (in_folder (p_in P) p)) None (pieces v) ->
  exists s, reconstruct P (ser_srr l) g = (s, Continue) /\ fs_get (s_fs s) o = Some (ser_volume v).
Proof.
  intros S H Sn Pp V T G Su. destruct (reconstruct_volumes P g l [(n, v)] [o] S H Pp) as (s & E & F & _).
  - constructor; [exact V|constructor].
  - constructor; [exact T|constructor].
  - constructor; [intros []|constructor].
  - constructor; [exact G|constructor].
  - intros _. rewrite Sn. constructor.
  - cbn [map concat snd]. now rewrite app_nil_r.
  - exists s. split; [exact E|]. now inversion F.
Qed.
Theorem vob_rebuild an rnd sample srs name sig f have v dest P g o :
  valid_text an -> lenN (utf8 an) < 65527 -> valid_text (basename sample) -> lenN (utf8 (basename sample)) + 9 < 65536 ->
  rared_vob sample sig -> store_volume v -> fs_get f sample = Some (ser_volume v) -> vob_place (fs_get f) srs name dest -> fs_get f (dest ++ str "-" ++ rnd ++ str ".tmp") = None ->
  p_part P = [] -> target (p_paths P) (normpath (p_out P)) (basename sample) o -> fs_get g o = None -> supplied (fun p => fs_get g (in_folder (p_in P) p)) None (pieces v) ->
  exists f' srr s, vob_srr an rnd sample srs (Some (name, sig)) f have = Ok (f', have ++ [dest]) /\ fs_get f' dest = Some srr /\
    reconstruct P srr g = (s, Continue) /\ fs_get (s_fs s) o = fs_get f sample.
Proof.
  intros A1 A2 B1 B2 R V Gs Pl Gt Pp T G Su. pose proof V as (Vo & _). destruct (vob_thm an rnd sample srs name sig f have v dest A1 A2 B1 B2 R Vo Gs Pl Gt) as (f' & l & E & Gd & S & H & Sn & _).
  destruct (rebuild_thm P g l (basename sample) v o S H Sn Pp V T G Su) as (s & E2 & G2). exists f', (ser_srr l), s. rewrite Gs. auto.
Qed.
