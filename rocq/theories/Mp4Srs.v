(** Mp4Srs: proofs about the SRS files of MP4 samples and rebuilding from them. *)
From Verif Require Import Base BaseFacts Crc CrcFacts SrsRec SrsRecSpec SrsRecFacts Srs SrrFacts RecovFacts MatchFacts StrmFacts Mp4 StrmSpec Mp3Spec Mp4Spec Mp4Tables Mp4Read Mp4Facts.
From Coq Require Import Permutation Sorted.

(** ** The SRS *)
Definition spart (ty d : bytes) : part := mkPart ty (lenN d + 8) (be 4 (lenN d + 8) ++ ty) d false.
Definition SP (q : part) : Prop := exists ty d, q = spart ty d /\ In ty [bstr "SRSF"; bstr "SRST"] /\ lenN d + 8 < 2 ^ 32.
Lemma spart_len ty d : In ty [bstr "SRSF"; bstr "SRST"] -> lenN (q_head (spart ty d)) = 8.
Proof. intros H. cbn [spart q_head]. rewrite lenN_app, lenN_be. destruct H as [<-|[<-|[]]]; reflexivity. Qed.
Lemma spart_reads check qs : forall (f pre post : bytes), Forall SP qs -> f = pre ++ pflat qs ++ post -> reads check f (lenN pre) qs.
Proof.
  induction qs as [|q qs IH]; intros f pre post F E; [exact I|]. inversion F as [|? ? (ty & d & -> & Ht & Hl) F']; subst q qs. rename l into qs.
  rewrite pflat_cons in E. unfold q_all in E. cbn [spart q_head q_data] in E. assert (L4 : lenN ty = 4) by (destruct Ht as [<-|[<-|[]]]; reflexivity).
  assert (Lh : lenN (be 4 (lenN d + 8) ++ ty) = 8) by (rewrite lenN_app, lenN_be, L4; reflexivity).
  cbn [reads]. unfold q_all. cbn [spart q_head q_data q_enter q_size q_atom q_ty]. repeat split.
  - unfold q_atom. cbn [spart q_ty q_size q_head]. apply (next_header check f pre ty (lenN d + 8) _ (d ++ pflat qs ++ post) L4).
    + apply header_32; [lia|exact Hl].
    + rewrite E, <- !app_assoc. reflexivity.
    + intros _ _. rewrite E, lenN_app, !(lenN_app _ post), (lenN_app _ (pflat qs)), (lenN_app _ d), Lh. lia.
  - intros _. rewrite lenN_app, Lh. lia.
  - discriminate.
  - assert (E' : f = (pre ++ (be 4 (lenN d + 8) ++ ty)) ++ d ++ (pflat qs ++ post)) by (rewrite E, <- !app_assoc; reflexivity). rewrite E'. apply sub_app_exact; [now rewrite (lenN_app pre)|reflexivity].
  - rewrite Lh. lia.
  - rewrite <- lenN_app. apply (IH f _ post F'). rewrite E, <- !app_assoc. reflexivity.
Qed.
Lemma mov_atom_is ty d x : In ty [bstr "SRSF"; bstr "SRST"] -> mov_atom ty d = Ok x -> x = q_all (spart ty d) /\ SP (spart ty d).
Proof.
  intros Ht H. unfold mov_atom in H. bindinv H. apply ok_inj in H. subst x. unfold pack_be in E. destruct (lenN d + 8 <? 2 ^ (8 * N.of_nat 4)) eqn:L; [|discriminate]. apply ok_inj in E. subst v.
  split; [unfold q_all; cbn [spart q_head q_data]; now rewrite <- app_assoc|]. exists ty, d. repeat split; try assumption. apply N.ltb_lt in L. exact L.
Qed.
(** what a sample is made into: the data of the file, of the tracks *)
Definition srs_parts (x : bytes) (ys : list bytes) : list part := spart (bstr "SRSF") x :: map (spart (bstr "SRST")) ys.
Lemma srs_atoms_is app fd ts s : srs_atoms app fd ts = Ok s -> exists x ys, serialize_file app fd = Ok x /\ Forall2 (fun t y => serialize_track t = Ok y) ts ys /\
  s = pflat (srs_parts x ys) /\ Forall SP (srs_parts x ys).
Proof.
  intros H. unfold srs_atoms in H. bindinv H. bindinv E. bindinv H. apply ok_inj in H. subst s. exists v0. rename v0 into x. rename v1 into l.
  apply mov_atom_is in E; [|now left]. destruct E as (-> & S0).
  assert (K : exists ys, Forall2 (fun t y => serialize_track t = Ok y) ts ys /\ concat l = pflat (map (spart (bstr "SRST")) ys) /\ Forall SP (map (spart (bstr "SRST")) ys)).
  { clear -E1. revert l E1. induction ts as [|t ts IH]; intros l E.
    - cbn [mapR] in E. apply ok_inj in E. subst l. exists []. repeat split; constructor.
    - cbn [mapR] in E. bindinv E. bindinv E0. bindinv E. apply ok_inj in E. subst l. destruct (IH _ E2) as (ys & A & B & C). exists (v0 :: ys).
      apply mov_atom_is in E0; [|right; now left]. destruct E0 as (-> & S1). split; [now constructor|]. cbn [concat map]. rewrite pflat_cons, B. split; [reflexivity|now constructor]. }
  destruct K as (ys & A & B & C). exists ys. split; [assumption|]. split; [exact A|]. unfold srs_parts. rewrite pflat_cons, B. split; [reflexivity|now constructor].
Qed.

(** ** Creating *)
Definition create' (app : text) (fd : file_data) (ts : list track_data) (out : bytes) (q : part) : result bytes :=
  if is_mdat q then do x <- srs_atoms app fd ts; Ok (out ++ x ++ q_head q) else Ok (out ++ q_all q).
Lemma create_acts app fd ts f ps : Forall (fun q => q_enter q = false) ps -> acts (create_step app fd ts f) (create' app fd ts) f ps.
Proof.
  intros F p pos s Hp Rc. rewrite Forall_forall in F. specialize (F p Hp). unfold move_ok. rewrite F. unfold create_step, create'. change (is_atom (bstr "mdat") (q_atom pos p)) with (is_mdat p).
  change (a_header (q_atom pos p)) with (q_head p). rewrite (Rc F). destruct (is_mdat p).
  - exists Skip. split; [discriminate|]. destruct (srs_atoms app fd ts); reflexivity.
  - exists ReadOn. split; [discriminate|]. reflexivity.
Qed.
Lemma create_top app fd ts ps : Forall top_part ps -> forall out, foldR (create' app fd ts) ps out = Ok (out ++ pflat ps).
Proof.
  induction 1 as [|q ps (E & Ni) F IH]; intros out; [cbn; now rewrite app_nil_r|]. cbn [foldR]. unfold create' at 1.
  rewrite (not_mdat q special Ni) by (now left). cbn [bind]. rewrite IH, pflat_cons. now rewrite app_assoc.
Qed.
Notation fd_of := sample_data_of.
Definition stored (big : bool) (offset : N -> N) (t : vtrack) : track_data := stored_track big offset (final t).
Lemma srs_form app name big offset a h p b ts : mp4_ok a h p b ts -> ts <> [] ->
  mp4_srs app name big offset (mp4_file a h p b) = do x <- srs_atoms app (fd_of name (mp4_file a h p b)) (map (stored big offset) ts); Ok (a ++ x ++ h ++ b).
Proof.
  intros H Hn. unfold mp4_srs. rewrite (profile_sample name a h p b ts H). cbn [bind fst snd].
  replace (match map final ts with [] => _ | _ => _ end) with (mov_read false (create_step app (fd_of name (mp4_file a h p b)) (map (stored_track big offset) (map final ts)) (mp4_file a h p b)) (mp4_file a h p b) []) by (destruct ts; [now destruct Hn|reflexivity]).
  rewrite map_map. change (fun x => stored_track big offset (final x)) with (stored big offset).
  destruct H as (M & C & (ia & ib & Ba & Bb & T) & _). destruct (boxes_top _ _ Ba) as (pa & Ea & Fa & Ra). destruct (boxes_top _ _ Bb) as (pb & Eb & Fb & Rb).
  set (f := mp4_file a h p b) in *. set (q := mkPart (bstr "mdat") (lenN h + lenN p) h p false).
  rewrite (read_run false _ (create' app (fd_of name f) (map (stored big offset) ts)) f (pa ++ [q] ++ pb)).
  - rewrite fold_app, (create_top _ _ _ pa Fa). cbn [bind Datatypes.app foldR]. unfold create' at 1. change (is_mdat q) with true. cbv iota. destruct (srs_atoms app (fd_of name f) _) as [x|]; [|reflexivity]. cbn [bind].
    rewrite (create_top _ _ _ pb Fb). rewrite Ea, Eb. cbn [q q_head]. now rewrite <- !app_assoc.
  - apply reads_app. split; [now apply (Ra false f [] (h ++ p ++ b))|]. rewrite Ea, N.add_0_l. apply reads_app. split; [apply (mdat_reads false f a h p b M eq_refl)|].
    specialize (Rb false f (a ++ h ++ p) []). rewrite lenN_app in Rb. unfold pflat, q_all. cbn [map concat q q_head q_data]. rewrite app_nil_r. apply Rb. unfold f, mp4_file. now rewrite app_nil_r, <- !app_assoc.
  - rewrite !pflat_app, Ea, Eb. unfold pflat, q_all. cbn [map concat q q_head q_data]. unfold f, mp4_file. now rewrite app_nil_r, <- !app_assoc.
  - apply create_acts. apply Forall_app. split; [|constructor; [reflexivity|]]; eapply Forall_impl; try exact Fa; try exact Fb; now intros x (E & _).
Qed.

(** ** Reading the SRS *)
Lemma mdat_enters (srs pre h p b : bytes) : mdat_header h p b -> srs = pre ++ h ++ b -> exists n, reads false srs (lenN pre) [mkPart (bstr "mdat") n h [] true].
Proof.
  intros M E. assert (K : exists n, mov_next false srs (lenN pre) = Ok (Some (mkAtom (bstr "mdat") n h (lenN pre))) /\ 8 <= lenN h).
  { destruct M as [Hh|(-> & ->)].
    - exists (lenN h + lenN p). split; [|now apply (header_len (bstr "mdat") _ _ eq_refl Hh)]. apply (next_header false srs pre (bstr "mdat") _ h b eq_refl Hh E). discriminate.
    - exists (8 + lenN (@nil byte)). split; [|vm_compute; discriminate]. now apply next_open. }
  destruct K as (n & K & L). exists n. cbn [reads q_head q_data q_enter q_size q_all q_atom q_ty]. repeat split; try assumption; try discriminate. apply takeN_0.
Qed.
Definition srs_file (a h b x : bytes) (ys : list bytes) : bytes := a ++ pflat (srs_parts x ys) ++ h ++ b.
(** what a reader sees that does not go into the containers, and one that does *)
Lemma srs_reads (top : part -> Prop) a h p b x ys : mdat_header h p b -> Forall SP (srs_parts x ys) -> forall pa pb, pflat pa = a -> pflat pb = b ->
  (forall check (f pre post : bytes), f = pre ++ a ++ post -> reads check f (lenN pre) pa) -> (forall check (f pre post : bytes), f = pre ++ b ++ post -> reads check f (lenN pre) pb) ->
  exists n, let ps := pa ++ srs_parts x ys ++ [mkPart (bstr "mdat") n h [] true] ++ pb in reads false (srs_file a h b x ys) 0 ps /\ pflat ps = srs_file a h b x ys.
Proof.
  intros M S pa pb Ea Eb Ra Rb. set (srs := srs_file a h b x ys). destruct (mdat_enters srs (a ++ pflat (srs_parts x ys)) h p b M) as (n & K); [unfold srs, srs_file; now rewrite <- app_assoc|].
  exists n. cbv zeta. split.
  - apply reads_app. split; [now apply (Ra false srs [] (pflat (srs_parts x ys) ++ h ++ b))|]. rewrite Ea, N.add_0_l. apply reads_app. split; [now apply (spart_reads false _ srs a (h ++ b) S)|].
    apply reads_app. rewrite <- lenN_app. split; [exact K|]. specialize (Rb false srs ((a ++ pflat (srs_parts x ys)) ++ h) []). rewrite lenN_app in Rb. unfold pflat at 2, q_all. cbn [map concat q_head q_data].
    rewrite !app_nil_r. apply Rb. unfold srs, srs_file. now rewrite app_nil_r, <- !app_assoc.
  - rewrite !pflat_app, Ea, Eb. unfold pflat at 2, q_all. cbn [map concat q_head q_data]. rewrite !app_nil_r. reflexivity.
Qed.
Definition srs_part (q : part) : Prop := top_part q \/ SP q \/ (q_ty q = bstr "mdat" /\ q_enter q = true).
Lemma srs_parts_ok pa pb x ys n h : Forall top_part pa -> Forall top_part pb -> Forall SP (srs_parts x ys) -> Forall srs_part (pa ++ srs_parts x ys ++ [mkPart (bstr "mdat") n h [] true] ++ pb).
Proof.
  intros Fa Fb S. apply Forall_app. split; [eapply Forall_impl; [|exact Fa]; now left|]. apply Forall_app. split; [eapply Forall_impl; [|exact S]; intros q H; right; now left|].
  constructor; [right; right; now split|]. eapply Forall_impl; [|exact Fb]. now left.
Qed.
Lemma SP_cases q : SP q -> q_enter q = false /\ (q_ty q = bstr "SRSF" \/ q_ty q = bstr "SRST").
Proof. intros (ty & d & -> & H & _). split; [reflexivity|]. cbn [spart q_ty]. destruct H as [<-|[<-|[]]]; tauto. Qed.
Lemma not_special q ty : ~ In (q_ty q) special -> In ty special -> beqb (q_ty q) ty = false.
Proof. intros H I. destruct (beqb _ _) eqn:E; [|reflexivity]. apply beqb_eq in E. rewrite <- E in I. contradiction. Qed.
Definition load' (s : option file_data * tracks) (q : part) : result (option file_data * tracks) := load_data s (q_ty q, q_data q).
Lemma load_acts f ps : Forall srs_part ps -> acts (load_step f) load' f ps.
Proof.
  intros F q pos s Hq Rc. rewrite Forall_forall in F. specialize (F q Hq). unfold move_ok, load_step, load', load_data. cbn [fst snd].
  change (is_atom (bstr "SRSF") (q_atom pos q)) with (beqb (q_ty q) (bstr "SRSF")). change (is_atom (bstr "SRST") (q_atom pos q)) with (beqb (q_ty q) (bstr "SRST")). change (is_atom (bstr "mdat") (q_atom pos q)) with (beqb (q_ty q) (bstr "mdat")).
  destruct F as [(E & Ni)|[S|(Et & E)]].
  - rewrite E. rewrite !(not_special q) by (assumption || (cbn [In special]; tauto)). exists Skip. split; [discriminate|reflexivity].
  - apply SP_cases in S as (E & [Et|Et]); rewrite E, Et, (Rc E); exists ReadOn; (split; [discriminate|]).
    + change (beqb (bstr "SRSF") (bstr "SRSF")) with true. cbv iota. destruct (parse_file_data (q_data q)); reflexivity.
    + change (beqb (bstr "SRST") (bstr "SRSF")) with false. change (beqb (bstr "SRST") (bstr "SRST")) with true. cbv iota. destruct (parse_track (q_data q)); reflexivity.
  - rewrite E, Et. exists Child. split; reflexivity.
Qed.
Lemma load_top ps : Forall top_part ps -> forall s, foldR load' ps s = Ok s.
Proof.
  induction 1 as [|q ps (E & Ni) F IH]; intros s; [reflexivity|]. cbn [foldR]. unfold load' at 1, load_data. cbn [fst snd]. rewrite !(not_special q) by (assumption || (cbn [In special]; tauto)). apply IH.
Qed.
Lemma set_track_new k v d : ~ In k (map fst d) -> set_track k v d = d ++ [(k, v)].
Proof.
  induction d as [|(q, w) d IH]; intros H; [reflexivity|]. cbn [set_track]. destruct (N.eqb_spec q k) as [->|Nk]; [exfalso; apply H; now left|]. rewrite IH by (intros X; apply H; now right). reflexivity.
Qed.
Definition loaded_track (big : bool) (offset : N -> N) (t : vtrack) : N * track := (v_id t, track_of (stored big offset t)).
Lemma load_tracks big offset fd ts : forall ys (done : tracks), Forall2 (fun t y => serialize_track t = Ok y) (map (stored big offset) ts) ys -> Forall (fun t => v_id t < 2 ^ 16) ts -> NoDup (map fst done ++ map v_id ts) ->
  foldR load' (map (spart (bstr "SRST")) ys) (Some fd, done) = Ok (Some fd, done ++ map (loaded_track big offset) ts).
Proof.
  induction ts as [|t ts IH]; intros ys done H Hi Nd; inversion H as [|? y ? ys' Hy H']; subst; [cbn; now rewrite app_nil_r|]. inversion Hi as [|? ? Hk Hi']; subst.
  cbn [map foldR]. unfold load' at 1, load_data. cbn [spart q_ty q_data fst snd]. change (beqb (bstr "SRST") (bstr "SRSF")) with false. change (beqb (bstr "SRST") (bstr "SRST")) with true. cbv iota.
  pose proof (track_round (stored big offset t) y [] Hy) as R. rewrite app_nil_r in R. rewrite R.
  2:{ unfold stored, stored_track, with_stored, final. cbn [td_flags td_number fst snd]. split; [|intros X; apply N.lt_nge in Hk; contradiction]. intros X. destruct big; vm_compute in X; discriminate. }
  cbn [bind]. change (td_number (stored big offset t)) with (v_id t). rewrite set_track_new.
  - rewrite (IH ys' _ H' Hi'); [cbn [map]; now rewrite <- app_assoc|]. rewrite map_app, <- app_assoc. exact Nd.
  - intros X. cbn [map] in Nd. apply NoDup_remove_2 in Nd. apply Nd, in_or_app. now left.
Qed.
Lemma load_is app name big offset a h p b ts srs : mp4_ok a h p b ts -> Forall (fun t => v_id t < 2 ^ 16) ts -> mp4_srs app name big offset (mp4_file a h p b) = Ok srs ->
  exists d x ys, mp4_load_srs srs = Ok (d, map (loaded_track big offset) ts) /\ fd_crc32 d = crc32 (mp4_file a h p b) /\ srs = srs_file a h b x ys /\ Forall SP (srs_parts x ys).
Proof.
  intros H Hi E. assert (Hn : ts <> []).
  { intros ->. unfold mp4_srs in E. rewrite (profile_sample name a h p b [] H) in E. discriminate. }
  rewrite (srs_form _ _ _ _ _ _ _ _ _ H Hn) in E. bindinv E. apply ok_inj in E. apply srs_atoms_is in E0 as (x & ys & X & Y & -> & S).
  destruct (parse_back _ _ _ X) as (d & P & Pc & _). exists d, x, ys. cbn [fd_of fd_crc32] in Pc. rewrite N.mod_small in Pc by apply crc32_lt. split; [|split; [exact Pc|split; [now symmetry|exact S]]].
  destruct H as (M & C & (ia & ib & Ba & Bb & T) & _). destruct (boxes_top _ _ Ba) as (pa & Ea & Fa & Ra). destruct (boxes_top _ _ Bb) as (pb & Eb & Fb & Rb).
  destruct (srs_reads top_part a h p b x ys M S pa pb Ea Eb Ra Rb) as (n & R & Fl). cbv zeta in R, Fl.
  unfold mp4_load_srs. subst srs. fold (srs_file a h b x ys). rewrite (read_run false _ load' _ _ (None, []) R Fl (load_acts _ _ (srs_parts_ok _ _ _ _ _ _ Fa Fb S))).
  rewrite fold_app, (load_top pa Fa). cbn [bind]. rewrite fold_app. unfold srs_parts at 1. cbn [foldR]. unfold load' at 1, load_data. cbn [spart q_ty q_data fst snd]. change (beqb (bstr "SRSF") (bstr "SRSF")) with true. cbv iota. rewrite P. cbn [bind].
  rewrite (load_tracks big offset d ts ys [] Y Hi) by (exact (proj1 T)). cbn [bind Datatypes.app foldR].
  unfold load' at 1, load_data. cbn [q_ty fst snd]. change (beqb (bstr "mdat") (bstr "SRSF")) with false. change (beqb (bstr "mdat") (bstr "SRST")) with false. cbv iota. cbn [bind].
  rewrite (load_top pb Fb). reflexivity.
Qed.

(** ** The tables in the SRS *)
Definition psrs' (ids : list N) (s : mtracks * option N) (q : part) : result (mtracks * option N) := if q_enter q then Ok s else sitem ids s (q_ty q, q_data q).
Definition psrs_part (q : part) : Prop := flat_part false q \/ SP q \/ (q_ty q = bstr "mdat" /\ q_enter q = true).
Lemma add_at t pos q d : add_table t (q_atom pos q) d = add_table t (at_type (q_ty q)) d. Proof. reflexivity. Qed.
Lemma psrs_acts ids f ps : Forall psrs_part ps -> acts (psrs_step ids f) (psrs' ids) f ps.
Proof.
  intros F q pos s Hq Rc. rewrite Forall_forall in F. specialize (F q Hq). unfold move_ok, psrs_step, psrs'. cbv zeta. change (is_atom (bstr "mdat") (q_atom pos q)) with (is_mdat q).
  assert (K : (is_container (q_atom pos q) || is_mdat q) = q_enter q).
  { destruct F as [F|[S|(Et & E)]].
    - unfold flat_part in F. destruct (q_enter q); [now rewrite (proj2 (container_at pos q) F)|]. destruct F as (Nc & _ & Nm). rewrite (Nm eq_refl), orb_false_r. destruct (is_container (q_atom pos q)) eqn:I; [|reflexivity]. now apply container_at in I.
    - apply SP_cases in S as (E & S). rewrite E. unfold is_container, is_atom, is_mdat. cbn [q_atom a_type]. destruct S as [-> | ->]; reflexivity.
    - rewrite E. unfold is_mdat. rewrite Et. change (beqb (bstr "mdat") (bstr "mdat")) with true. apply orb_true_r. }
  rewrite K. destruct (q_enter q) eqn:E; [exists Child; split; reflexivity|]. rewrite (Rc eq_refl). exists ReadOn. split; [discriminate|]. unfold sitem. cbn [fst snd]. unfold is_atom. cbn [q_atom a_type]. rewrite !add_at.
  f_equal.
Qed.
Lemma psrs_flat ids ps : Forall (flat_part false) ps -> forall s, foldR (psrs' ids) ps s = foldR (sitem ids) (items ps) s.
Proof.
  induction 1 as [|q ps F _ IH]; intros s; [reflexivity|]. cbn [foldR]. unfold psrs' at 1. unfold items. cbn [filter]. unfold flat_part in F. destruct (q_enter q); cbn [negb andb].
  - fold (items ps). apply IH.
  - destruct F as (_ & _ & ->); [|reflexivity]. cbn [negb map foldR]. fold (items ps). destruct (sitem ids s (q_ty q, q_data q)); [apply IH|reflexivity].
Qed.
Lemma psrs_none ids ps : Forall SP ps -> forall s, foldR (psrs' ids) ps s = Ok s.
Proof.
  induction 1 as [|q ps S _ IH]; intros s; [reflexivity|]. cbn [foldR]. unfold psrs' at 1. apply SP_cases in S as (-> & S). unfold sitem. cbn [fst snd].
  replace (beqb (q_ty q) (bstr "tkhd")) with false by (destruct S as [-> | ->]; reflexivity).
  assert (K : forall t, add_table t (at_type (q_ty q)) (q_data q) = None) by (intros t; apply add_none; cbn [at_type a_type]; destruct S as [-> | ->]; reflexivity).
  rewrite K. destruct (snd s) as [k|]; [|apply IH]. destruct (get_m k (fst s)); [|apply IH]. rewrite K. apply IH.
Qed.
Lemma psrs_is a h p b ts x ys : mp4_ok a h p b ts -> Forall SP (srs_parts x ys) -> mp4_profile_srs (map v_id ts) (srs_file a h b x ys) = Ok (found (fun _ => []) (fun _ => 0) ts).
Proof.
  intros (M & C & (ia & ib & Ba & Bb & T) & _) S. destruct (boxes_flat _ _ _ Ba) as (pa & Ea & Eia & Fa & Ra). destruct (boxes_flat _ _ _ Bb) as (pb & Eb & Eib & Fb & Rb).
  destruct (srs_reads top_part a h p b x ys M S pa pb Ea Eb Ra Rb) as (n & R & Fl). cbv zeta in R, Fl. unfold mp4_profile_srs.
  rewrite (read_run false _ (psrs' (map v_id ts)) _ _ ([], None) R Fl).
  2:{ apply psrs_acts. apply Forall_app. split; [eapply Forall_impl; [|exact Fa]; now left|]. apply Forall_app. split; [eapply Forall_impl; [|exact S]; intros q H; right; now left|].
      constructor; [right; right; now split|]. eapply Forall_impl; [|exact Fb]. now left. }
  rewrite fold_app, (psrs_flat _ _ Fa), Eia. destruct (sitem_tracks (map v_id ts) ts (ia ++ ib) T) as (cur & Q); [intros t Ht; now apply in_map|].
  rewrite fold_app in Q. destruct (foldR (sitem (map v_id ts)) ia ([], None)) as [s|]; [|discriminate]. cbn [bind] in Q |- *. rewrite fold_app, (psrs_none _ _ S). cbn [bind Datatypes.app foldR]. unfold psrs' at 1. cbn [q_enter bind].
  rewrite (psrs_flat _ _ Fb), Eib, Q. reflexivity.
Qed.

(** ** Ordering the chunks *)
Definition shp (x : N * (N * list bytes)) : N * chunk := (fst x, shape (snd x)).
Definition ckey (x : N * chunk) : N := fst (snd x).
Lemma insert_perm x l : Permutation (insert_chunk x l) (x :: l).
Proof. induction l as [|y l IH]; [constructor; constructor|]. cbn [insert_chunk]. destruct (_ <=? _); [apply Permutation_refl|]. eapply Permutation_trans; [apply perm_skip, IH|apply perm_swap]. Qed.
Lemma order_perm l : Permutation (order_chunks l) l.
Proof. induction l as [|x l IH]; [constructor|]. unfold order_chunks. cbn [fold_right]. fold (order_chunks l). eapply Permutation_trans; [apply insert_perm|]. now apply perm_skip. Qed.
Definition kle (x y : N * chunk) : Prop := ckey x <= ckey y.
Definition klt (x y : N * chunk) : Prop := ckey x < ckey y.
Lemma insert_sorted x l : StronglySorted kle l -> StronglySorted kle (insert_chunk x l).
Proof.
  induction 1 as [|y l S IH F]; cbn [insert_chunk]; [constructor; constructor|]. destruct (fst (snd x) <=? fst (snd y)) eqn:E.
  - constructor; [now constructor|]. apply N.leb_le in E. constructor; [exact E|]. eapply Forall_impl; [|exact F]. intros z Hz. unfold kle, ckey in *. lia.
  - constructor; [exact IH|]. apply N.leb_gt in E. apply Forall_forall. intros z Hz. apply (Permutation_in _ (insert_perm x l)) in Hz. destruct Hz as [<-|Hz]; [unfold kle, ckey; lia|]. rewrite Forall_forall in F. now apply F.
Qed.
Lemma order_sorted l : StronglySorted kle (order_chunks l).
Proof. induction l as [|x l IH]; [constructor|]. unfold order_chunks. cbn [fold_right]. now apply insert_sorted. Qed.
Lemma sorted_unique a : forall b, StronglySorted kle a -> StronglySorted klt b -> Permutation a b -> a = b.
Proof.
  induction a as [|x a IH]; intros b Sa Sb P; [apply Permutation_nil in P; now subst|]. destruct b as [|y b]; [apply Permutation_sym, Permutation_nil in P; discriminate|].
  inversion Sa as [|? ? Sa' Fa]; subst. inversion Sb as [|? ? Sb' Fb]; subst.
  assert (x = y).
  { assert (Hx : In x (y :: b)) by (apply (Permutation_in _ P); now left). assert (Hy : In y (x :: a)) by (apply (Permutation_in _ (Permutation_sym P)); now left).
    destruct Hx as [->|Hx]; [reflexivity|]. destruct Hy as [->|Hy]; [reflexivity|]. rewrite Forall_forall in Fa, Fb. specialize (Fa y Hy). specialize (Fb x Hx). unfold kle, klt in *. lia. }
  subst y. f_equal. apply IH; try assumption. now apply Permutation_cons_inv in P.
Qed.
Lemma laid_above l : forall pos p, laid_out pos l p -> Forall (fun x => pos <= fst (snd x)) l.
Proof.
  induction l as [|(k, (o, ds)) l IH]; intros pos p H; [constructor|]. inversion H as [|? ? ? ? q Ne L]; subst. constructor; [cbn; lia|]. eapply Forall_impl; [|apply (IH _ _ L)]. intros x Hx. cbn beta in *. lia.
Qed.
Lemma laid_sorted l : forall pos p, laid_out pos l p -> StronglySorted klt (map shp l).
Proof.
  induction l as [|(k, (o, ds)) l IH]; intros pos p H; [constructor|]. inversion H as [|? ? ? ? q Ne L]; subst. cbn [map]. constructor; [now apply (IH _ _ L)|].
  apply Forall_forall. intros z Hz. apply in_map_iff in Hz as (x & <- & Hx). pose proof (laid_above _ _ _ L) as A. rewrite Forall_forall in A. specialize (A x Hx).
  assert (0 < lenN (concat ds)) by (destruct (concat ds); [now destruct Ne|rewrite lenN_cons; lia]). unfold klt, ckey. cbn [shp shape fst snd]. lia.
Qed.
Definition chunk_list (ts : list vtrack) : list (list (N * chunk)) := map (fun t => map (pair (v_id t)) (map shape (v_chunks t))) ts.
Lemma chunk_gather ts l : (forall t, In t ts -> v_chunks t = chunks_of (v_id t) l) -> concat (chunk_list ts) = map shp (gather l (map v_id ts)).
Proof.
  unfold chunk_list, gather. induction ts as [|t ts IH]; intros H; [reflexivity|]. cbn [map concat]. rewrite map_app, IH by (intros u Hu; apply H; now right). f_equal.
  rewrite (H t (or_introl eq_refl)). unfold chunks_of. rewrite !map_map. apply map_ext_in. intros x Hx. apply filter_In in Hx as (_ & Hx). apply N.eqb_eq in Hx. unfold shp. now rewrite Hx.
Qed.
Lemma order_is ts l pos p : NoDup (map v_id ts) -> laid_out pos l p -> (forall x, In x l -> In (fst x) (map v_id ts)) -> (forall t, In t ts -> v_chunks t = chunks_of (v_id t) l) ->
  order_chunks (concat (chunk_list ts)) = map shp l.
Proof.
  intros Nd L Hi Hc. apply sorted_unique; [apply order_sorted|now apply (laid_sorted _ _ _ L)|]. eapply Permutation_trans; [apply order_perm|]. rewrite (chunk_gather ts l Hc). apply Permutation_map. now apply gather_perm.
Qed.

(** ** Writing the chunks *)
Notation files := (list (N * bytes)).
Lemma find_file k (F : files) : In k (map fst F) -> exists d, find (fun x => fst x =? k) F = Some (k, d) /\ In (k, d) F.
Proof.
  induction F as [|(q, d) F IH]; intros H; [destruct H|]. cbn [find fst]. destruct (N.eqb_spec q k) as [->|Nk]; [exists d; split; [reflexivity|now left]|]. destruct H as [H|H]; [contradiction|]. destruct (IH H) as (e & E & I). exists e. split; [exact E|now right].
Qed.
Definition rest_files (k n : N) (d : bytes) (F : files) : files := map (fun x => if fst x =? k then (k, dropN n d) else x) F.
Lemma rest_keys k n d (F : files) : map fst (rest_files k n d F) = map fst F.
Proof. unfold rest_files. induction F as [|(q, e) F IH]; [reflexivity|]. cbn [map fst]. rewrite IH. f_equal. destruct (N.eqb_spec q k) as [E|E]; [now symmetry|reflexivity]. Qed.
Lemma chunks_cons k x l : chunks_of k (x :: l) = if fst x =? k then snd x :: chunks_of k l else chunks_of k l.
Proof. unfold chunks_of. cbn [filter]. destruct (fst x =? k); reflexivity. Qed.
Lemma len_flat_cons c l : lenN (flat (c :: l)) = lenN (concat (snd c)) + lenN (flat l). Proof. now rewrite flat_cons, lenN_app. Qed.
Lemma write_exact l : forall (F : files), (forall x, In x l -> In (fst x) (map fst F)) -> (forall k d, In (k, d) F -> starts (flat (chunks_of k l)) d) ->
  exists F', write_chunks (map shp l) F = Ok (concat (map (fun x => concat (snd (snd x))) l), F').
Proof.
  induction l as [|(k, (o, ds)) l IH]; intros F Hk Hs; [now exists F|]. cbn [map write_chunks shp fst snd shape]. destruct (find_file k F (Hk _ (or_introl eq_refl))) as (d & -> & Hd). cbv zeta. rewrite sum_len. fold (rest_files k (lenN (concat ds)) d F).
  destruct (Hs k d Hd) as (r & Er). rewrite chunks_cons in Er. cbn [fst snd] in Er. rewrite N.eqb_refl, flat_cons in Er. cbn [snd] in Er. rewrite <- app_assoc in Er.
  destruct (IH (rest_files k (lenN (concat ds)) d F)) as (F' & E).
  - intros x Hx. rewrite rest_keys. apply Hk. now right.
  - intros k' d' H. unfold rest_files in H. apply in_map_iff in H as ((q, e) & Eq & Hq). cbn [fst] in Eq. destruct (N.eqb_spec q k) as [->|Nk].
    + injection Eq as <- <-. exists r. rewrite Er. now apply dropN_app_exact.
    + injection Eq as <- <-. specialize (Hs q e Hq). rewrite chunks_cons in Hs. cbn [fst] in Hs. replace (k =? q) with false in Hs by (symmetry; apply N.eqb_neq; congruence). exact Hs.
  - rewrite E. cbn [bind fst snd]. exists F'. cbn [concat]. do 2 f_equal. f_equal. rewrite Er. now apply takeN_app_exact.
Qed.
Lemma write_length l : forall (F : files), (forall x, In x l -> In (fst x) (map fst F)) -> (forall k d, In (k, d) F -> lenN (flat (chunks_of k l)) <= lenN d) ->
  exists out F', write_chunks (map shp l) F = Ok (out, F') /\ lenN out = weight l.
Proof.
  induction l as [|(k, (o, ds)) l IH]; intros F Hk Hs; [exists [], F; now split|]. cbn [map write_chunks shp fst snd shape]. destruct (find_file k F (Hk _ (or_introl eq_refl))) as (d & -> & Hd). cbv zeta. rewrite sum_len. fold (rest_files k (lenN (concat ds)) d F).
  pose proof (Hs k d Hd) as Er. rewrite chunks_cons in Er. cbn [fst snd] in Er. rewrite N.eqb_refl, len_flat_cons in Er. cbn [snd] in Er.
  destruct (IH (rest_files k (lenN (concat ds)) d F)) as (out & F' & E & L).
  - intros x Hx. rewrite rest_keys. apply Hk. now right.
  - intros k' d' H. unfold rest_files in H. apply in_map_iff in H as ((q, e) & Eq & Hq). cbn [fst] in Eq. destruct (N.eqb_spec q k) as [->|Nk].
    + injection Eq as <- <-. rewrite lenN_dropN. lia.
    + injection Eq as <- <-. specialize (Hs q e Hq). rewrite chunks_cons in Hs. cbn [fst] in Hs. replace (k =? q) with false in Hs by (symmetry; apply N.eqb_neq; congruence). exact Hs.
  - rewrite E. cbn [bind fst snd]. eexists. exists F'. split; [reflexivity|]. rewrite lenN_app, L, lenN_takeN. unfold weight. cbn [map sumN fold_right snd]. fold (sumN (map (fun x : N * (N * list bytes) => lenN (concat (snd (snd x)))) l)). unfold sumN. lia.
Qed.
Lemma laid_payload l : forall pos p, laid_out pos l p -> concat (map (fun x => concat (snd (snd x))) l) = p.
Proof. induction l as [|(k, (o, ds)) l IH]; intros pos p H; inversion H as [|? ? ? ? q Ne L]; subst; [reflexivity|]. cbn [map concat snd]. now rewrite (IH _ _ L). Qed.

(** ** Rebuilding *)
Definition rebuild' (ordered : list (N * chunk)) (s : bytes * files) (q : part) : result (bytes * files) :=
  if beqb (q_ty q) (bstr "SRSF") || beqb (q_ty q) (bstr "SRST") then Ok s
  else if is_mdat q then do r <- write_chunks ordered (snd s); Ok (fst s ++ q_head q ++ fst r, snd r)
  else Ok (fst s ++ q_all q, snd s).
Lemma rebuild_acts ordered f ps : Forall srs_part ps -> acts (rebuild_step ordered f) (rebuild' ordered) f ps.
Proof.
  intros F q pos s Hq Rc. rewrite Forall_forall in F. specialize (F q Hq). unfold move_ok, rebuild_step, rebuild', is_mdat.
  change (is_atom (bstr "SRSF") (q_atom pos q)) with (beqb (q_ty q) (bstr "SRSF")). change (is_atom (bstr "SRST") (q_atom pos q)) with (beqb (q_ty q) (bstr "SRST")). change (is_atom (bstr "mdat") (q_atom pos q)) with (beqb (q_ty q) (bstr "mdat")).
  change (a_header (q_atom pos q)) with (q_head q). destruct F as [(E & Ni)|[S|(Et & E)]].
  - rewrite E, (Rc E). rewrite !(not_special q) by (assumption || (cbn [In special]; tauto)). exists ReadOn. split; [discriminate|reflexivity].
  - apply SP_cases in S as (E & S). rewrite E. replace (_ || _) with true by (destruct S as [-> | ->]; reflexivity). exists Skip. split; [discriminate|reflexivity].
  - rewrite E, Et. change (beqb (bstr "mdat") (bstr "SRSF") || beqb (bstr "mdat") (bstr "SRST")) with false. change (beqb (bstr "mdat") (bstr "mdat")) with true. cbv iota. exists Child. split; [reflexivity|]. destruct (write_chunks ordered (snd s)); reflexivity.
Qed.
Lemma rebuild_top ordered ps : Forall top_part ps -> forall o (F : files), foldR (rebuild' ordered) ps (o, F) = Ok (o ++ pflat ps, F).
Proof.
  induction 1 as [|q ps (E & Ni) Fa IH]; intros o F; [cbn; now rewrite app_nil_r|]. cbn [foldR]. unfold rebuild' at 1. unfold is_mdat. rewrite !(not_special q) by (assumption || (cbn [In special]; tauto)). cbn [orb bind fst snd].
  rewrite IH, pflat_cons. now rewrite app_assoc.
Qed.
Lemma rebuild_none ordered ps : Forall SP ps -> forall s, foldR (rebuild' ordered) ps s = Ok s.
Proof. induction 1 as [|q ps S _ IH]; intros s; [reflexivity|]. cbn [foldR]. unfold rebuild' at 1. apply SP_cases in S as (_ & S). replace (_ || _) with true by (destruct S as [-> | ->]; reflexivity). apply IH. Qed.
(** a track that has been extracted *)
Definition extracted (t : vtrack) (x : N * track) : Prop := fst x = v_id t /\ exists d, t_file (snd x) = Some d.
Definition file_of (x : N * track) : bytes := match t_file (snd x) with Some d => d | None => [] end.
Lemma get_found t ts : NoDup (map v_id ts) -> In t ts -> get_m (v_id t) (found (fun _ => []) (fun _ => 0) ts) = Some (tables t [] 0).
Proof. intros Nd H. apply get_in_m; [now rewrite found_ids|]. unfold found. apply in_map_iff. now exists t. Qed.
Lemma track_chunks_are ts all xs : NoDup (map v_id all) -> Forall2 extracted ts xs -> Forall counted ts -> (forall t, In t ts -> In t all) ->
  mapR (track_chunks (found (fun _ => []) (fun _ => 0) all)) xs = Ok (chunk_list ts).
Proof.
  intros Nd. induction 1 as [|t x ts xs (Ei & d & Ed) H IH]; intros C Hin; [reflexivity|]. inversion C as [|? ? Ct C']; subst. cbn [mapR]. unfold track_chunks at 1. rewrite Ed, Ei, (get_found t all Nd) by (apply Hin; now left).
  unfold tables at 1. rewrite (chunks_are t [] 0 Ct). cbn [bind]. rewrite (IH C') by (intros u Hu; apply Hin; now right). reflexivity.
Qed.
Lemma extracted_ids ts xs : Forall2 extracted ts xs -> map fst xs = map v_id ts.
Proof. induction 1 as [|t x ts xs (E & _) _ IH]; [reflexivity|]. cbn [map]. now rewrite E, IH. Qed.
Lemma rebuild_is a h p b ts xs x ys : mp4_ok a h p b ts -> Forall SP (srs_parts x ys) -> Forall2 extracted ts xs ->
  (forall l, laid_out (lenN a + lenN h) l p -> (forall x, In x l -> In (fst x) (map v_id ts)) -> (forall t, In t ts -> v_chunks t = chunks_of (v_id t) l) ->
    mp4_rebuild xs (srs_file a h b x ys) = do r <- write_chunks (map shp l) (map (fun t => (fst t, file_of t)) xs); Ok (mp4_file a h (fst r) b, mp4_file a h (fst r) b)).
Proof.
  intros H S X l L Hi Hc. unfold mp4_rebuild. rewrite (extracted_ids _ _ X), (psrs_is a h p b ts x ys H S). cbn [bind].
  destruct H as (M & C & (ia & ib & Ba & Bb & T) & _). rewrite (track_chunks_are ts ts xs (proj1 T) X C) by auto. cbn [bind]. rewrite (order_is ts l _ _ (proj1 T) L Hi Hc).
  destruct (boxes_top _ _ Ba) as (pa & Ea & Fa & Ra). destruct (boxes_top _ _ Bb) as (pb & Eb & Fb & Rb). destruct (srs_reads top_part a h p b x ys M S pa pb Ea Eb Ra Rb) as (n & R & Fl). cbv zeta in R, Fl.
  rewrite (read_run false _ (rebuild' (map shp l)) _ _ _ R Fl (rebuild_acts _ _ _ (srs_parts_ok _ _ _ _ _ _ Fa Fb S))).
  rewrite fold_app, (rebuild_top _ pa Fa). cbn [bind]. rewrite fold_app, (rebuild_none _ _ S). cbn [bind]. cbn [Datatypes.app foldR]. unfold rebuild' at 1. cbn [q_ty is_mdat q_head fst snd].
  change (beqb (bstr "mdat") (bstr "SRSF") || beqb (bstr "mdat") (bstr "SRST")) with false. change (is_mdat (mkPart (bstr "mdat") n h [] true)) with true. cbv iota. unfold file_of.
  destruct (write_chunks _ _) as [r|]; [|reflexivity]. cbn [bind]. rewrite (rebuild_top _ pb Fb). cbn [bind fst snd]. rewrite Ea, Eb. unfold mp4_file. now rewrite <- !app_assoc.
Qed.
