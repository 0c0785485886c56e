(** Mp4Main: which MP4 samples are rebuilt, what is rebuilt, and that reading ends. *)
From Verif Require Import Base BaseFacts Crc CrcFacts SrsRec SrsRecSpec SrsRecFacts Srs SrrFacts RecovFacts MatchFacts StrmFacts Mp4 StrmSpec Mp3Spec Mp4Spec Mp4Tables Mp4Read Mp4Facts Mp4Srs.
From Coq Require Import Permutation Sorted.

(** ** Finding the tracks *)
Definition base (big : bool) (offset : N -> N) (t : vtrack) (x : N * track) : Prop := fst x = v_id t /\ t_td (snd x) = stored big offset t.
Lemma one_track {B : vtrack -> N * track -> Prop} (HB : forall t x, B t x -> fst x = v_id t) k ts : forall xs, Forall2 B ts xs -> NoDup (map v_id ts) ->
  ((exists e, get_track k xs = Err e) /\ ~ In k (map v_id ts)) \/
  exists t1 t t2 x1 x x2, ts = t1 ++ t :: t2 /\ v_id t = k /\ get_track k xs = Ok x /\ (forall v, set_track k v xs = x1 ++ (k, v) :: x2) /\
    Forall2 B t1 x1 /\ B t (k, x) /\ Forall2 B t2 x2.
Proof.
  induction ts as [|t ts IH]; intros xs H Nd; inversion H as [|? x ? xs' Hx H']; subst.
  - left. split; [now exists KeyError|intros []].
  - cbn [map] in Nd. inversion Nd as [|? ? Nt Nd']; subst. destruct x as (q, v). pose proof (HB _ _ Hx) as Eq. cbn [fst] in Eq. subst q. cbn [get_track set_track].
    destruct (N.eqb_spec (v_id t) k) as [E|E].
    + right. exists [], t, ts, [], v, xs'. rewrite <- E. repeat split; try constructor; try assumption.
    + destruct (IH xs' H' Nd') as [((e & Ge) & Ni)|(t1 & u & t2 & x1 & x & x2 & Et & Ek & Gx & Sx & A & C & D)].
      * left. split; [now exists e|]. intros [X|X]; contradiction.
      * right. exists (t :: t1), u, t2, ((v_id t, v) :: x1), x, x2. rewrite Et. repeat split; try assumption; [|now constructor]. intros w. now rewrite Sx.
Qed.
(** located in the main file *)
Definition good (ms : list vtrack) (t : vtrack) (x : N * track) : Prop :=
  exists m o post, In m ms /\ v_id m = v_id t /\ from_offset m o post /\ starts (v_data t) (concat post) /\ t_offset (snd x) = Z.of_N o.
Lemma same_id (ms : list vtrack) m m' : NoDup (map v_id ms) -> In m ms -> In m' ms -> v_id m = v_id m' -> m = m'.
Proof.
  induction ms as [|x ms IH]; intros Nd H H' E; [destruct H|]. cbn [map] in Nd. inversion Nd as [|? ? Nx Nd']; subst. destruct H as [->|H], H' as [->|H'].
  - reflexivity.
  - exfalso. apply Nx. rewrite E. now apply in_map.
  - exfalso. apply Nx. rewrite <- E. now apply in_map.
  - now apply IH.
Qed.
Definition on_way (big : bool) (offset : N -> N) (all rest : list vtrack) (t : vtrack) (x : N * track) : Prop := base big offset t x /\ (good all t x \/ In (v_id t) (map v_id rest)).
Lemma way_next big offset all m rest t x : v_id t <> v_id m -> on_way big offset all (m :: rest) t x -> on_way big offset all rest t x.
Proof. intros N1 (B & [G|[E|I]]); [split; [exact B|now left]|now destruct N1|split; [exact B|now right]]. Qed.
Lemma ways_next big offset all m rest ts xs : ~ In (v_id m) (map v_id ts) -> Forall2 (on_way big offset all (m :: rest)) ts xs -> Forall2 (on_way big offset all rest) ts xs.
Proof.
  intros Ni H. induction H as [|t x ts xs Hx H IH]; [constructor|]. constructor; [|apply IH; intros X; apply Ni; now right]. apply way_next with m; [|exact Hx]. intros E. apply Ni. left. exact E.
Qed.
Lemma find_fold big offset main all ts : NoDup (map v_id ts) -> NoDup (map v_id all) -> Forall (fun m => counted m /\ inside main m /\ in_order (v_chunks m) /\ v_chunks m <> []) all ->
  in_movie first_held ts all -> forall rest xs, (forall m, In m rest -> In m all) -> Forall2 (on_way big offset all rest) ts xs ->
  exists xs', foldR (find_step main) (map final rest) xs = Ok xs' /\ Forall2 (on_way big offset all []) ts xs'.
Proof.
  intros Nt Na Fa Hm. induction rest as [|m rest IH]; intros xs Hin H; [exists xs; now split|]. cbn [map foldR]. unfold find_step at 1. cbn [final fst snd].
  rewrite Forall_forall in Fa. destruct (Fa m (Hin m (or_introl eq_refl))) as (Cm & Im & Om & Nm).
  destruct (one_track (fun t x (B : on_way big offset all (m :: rest) t x) => proj1 (proj1 B)) (v_id m) ts xs H Nt) as [((e & ->) & Ni)|(t1 & t & t2 & x1 & x & x2 & Et & Ek & -> & Sx & A & (Bt & _) & D)].
  - cbn [bind]. apply IH; [intros u Hu; apply Hin; now right|]. now apply ways_next with m.
  - unfold tables. rewrite (chunks_are m _ _ Cm). cbn [bind]. destruct (Hm t) as (m' & Hm' & Em' & Hh); [rewrite Et; apply in_or_app; right; now left|].
    assert (m' = m) by (apply (same_id all m' m Na Hm' (Hin m (or_introl eq_refl))); congruence). subst m'.
    destruct Bt as (B1 & B2). cbn [snd] in B2. rewrite B2. change (td_signature (stored big offset t)) with (takeN 256 (v_data t)).
    destruct (find_first main t m (occurs_places _ _ Im) Nm Hh) as (o & post & -> & Fo & St). cbn [bind]. apply IH; [intros u Hu; apply Hin; now right|]. rewrite Sx, Et.
    assert (Ni : ~ In (v_id m) (map v_id t1) /\ ~ In (v_id m) (map v_id t2)).
    { rewrite Et, map_app in Nt. cbn [map] in Nt. rewrite Ek in Nt. apply NoDup_remove_2 in Nt. split; intros X; apply Nt, in_or_app; [now left|now right]. }
    apply Forall2_app; [now apply ways_next with m|]. constructor; [|now apply ways_next with m].
    split; [split; [now rewrite Ek|exact B2]|]. left. exists m, o, post. repeat split; assumption.
Qed.
(** ** Extracting them *)
Definition pulled (big : bool) (offset : N -> N) (t : vtrack) (x : N * track) : Prop := base big offset t x /\ t_file (snd x) = Some (v_data t).
Lemma extract_all big offset main all ts : NoDup (map v_id all) -> Forall (fun m => counted m /\ inside main m /\ in_order (v_chunks m) /\ v_chunks m <> []) all ->
  forall xs, Forall2 (fun t x => base big offset t x /\ good all t x) ts xs ->
  exists xs', mapR (fun t => match get_m (fst t) (map final all) with
                 | None => Err KeyError
                 | Some m => do x <- mp4_extract_stream main (snd t) m; Ok (fst t, x)
                 end) xs = Ok xs' /\ Forall2 (pulled big offset) ts xs'.
Proof.
  intros Na Fa. induction ts as [|t ts IH]; intros xs H; inversion H as [|? x ? xs' ((B1 & B2) & (m & o & post & Hm & Em & Fo & (r & St) & Ho)) H']; subst; [exists []; split; [reflexivity|constructor]|].
  cbn [mapR]. rewrite B1. replace (get_m (v_id t) (map final all)) with (Some (snd (final m))).
  2:{ symmetry. apply get_in_m; [rewrite map_map; exact Na|]. rewrite <- Em. apply in_map_iff. now exists m. }
  rewrite Forall_forall in Fa. destruct (Fa m Hm) as (Cm & Im & Om & Nm). cbn [final snd]. unfold tables. rewrite (extract_at main m (snd x) o post _ _ Cm Im Om Fo Ho). cbn [bind].
  destruct (IH xs' H') as (ys & -> & F). cbn [bind]. eexists. split; [reflexivity|]. constructor; [|exact F]. split; [split; [reflexivity|exact B2]|].
  cbn [snd t_file]. rewrite B2. change (td_length (stored big offset t)) with (lenN (v_data t)). rewrite St. f_equal. now apply takeN_app_exact.
Qed.
Lemma good_place main ms t x : Forall (fun m => counted m /\ inside main m /\ in_order (v_chunks m) /\ v_chunks m <> []) ms -> good ms t x -> not_located false (snd x) = false.
Proof.
  intros Fa (m & o & post & Hm & _ & (c1 & o1 & e1 & e2 & c2 & C & -> & _) & _ & Ho). rewrite Forall_forall in Fa. destruct (Fa m Hm) as (_ & _ & Om & _). rewrite C in Om. apply in_order_app in Om. destruct Om as (L & _).
  unfold not_located. rewrite Ho. replace (Z.of_N (o1 + lenN (concat e1)) =? 0)%Z with false by lia. rewrite andb_false_r, andb_false_l. now rewrite andb_false_r.
Qed.
Lemma all_false {A} (p : A -> bool) l : Forall (fun x => p x = false) l -> existsb p l = false.
Proof. induction 1 as [|x l E _ IH]; [reflexivity|]. cbn [existsb]. now rewrite E, IH. Qed.
Lemma Forall2_right {A B} (P : A -> B -> Prop) (Q : B -> Prop) l m : Forall2 P l m -> (forall a b, P a b -> Q b) -> Forall Q m.
Proof. intros H K. induction H as [|a b l m Hab _ IH]; [constructor|]. constructor; [now apply K with a|exact IH]. Qed.
Lemma Forall2_imp {A B} (P Q : A -> B -> Prop) l m : (forall a b, P a b -> Q a b) -> Forall2 P l m -> Forall2 Q l m.
Proof. intros K H. induction H; constructor; auto. Qed.
Lemma Forall2_map_r {A B} (P : A -> B -> Prop) (g : A -> B) l : (forall a, In a l -> P a (g a)) -> Forall2 P l (map g l).
Proof. induction l as [|a l IH]; intros H; [constructor|]. cbn [map]. constructor; [apply H; now left|]. apply IH. intros b Hb. apply H. now right. Qed.
Lemma data_flat t : v_data t = flat (v_chunks t). Proof. reflexivity. Qed.

Theorem mp4_exact app name big offset no_stored a h p b ts srs main ms :
  mp4_ok a h p b ts -> Forall (fun t => v_id t < 2 ^ 16) ts -> mp4_srs app name big offset (mp4_file a h p b) = Ok srs -> movie_ok main ms ->
  (in_movie first_held ts ms /\ (no_stored = true \/ exists t, In t ts /\ offset (v_id t) = 0)) \/
  (no_stored = false /\ in_movie (fun t m => held_at (offset (v_id t)) t m) ts ms) ->
  mp4_restore no_stored srs main = Ok (Rebuilt (mp4_file a h p b)).
Proof.
  intros H Hi E Mo Hs. destruct (load_is _ _ _ _ _ _ _ _ _ _ H Hi E) as (d & x & ys & L & Hc & -> & S). unfold mp4_restore, srs_rebuild. rewrite L. cbn [bind].
  set (xs := map (loaded_track big offset) ts : tracks). set (search := false || negb (forallb _ xs) || no_stored).
  destruct (movie_profile main ms Mo) as (pr & Hp & Ht). destruct Mo as ((its & Bm & Tm) & Fm). destruct Tm as (Nm & _).
  assert (Nt : NoDup (map v_id ts)) by (destruct H as (_ & _ & (ia & ib & _ & _ & (Nt & _)) & _); exact Nt).
  assert (K : exists xs1 : tracks, (if search then mp4_find xs main else @Ok tracks xs) = @Ok tracks xs1 /\ Forall2 (fun t x => base big offset t x /\ good ms t x) ts xs1).
  { destruct search eqn:Se.
    - assert (Hm : in_movie first_held ts ms).
      { destruct Hs as [(Hm & _)|(Hn & Hh)]; [exact Hm|]. exfalso. unfold search in Se. rewrite Hn, orb_false_r in Se. cbn [orb] in Se. apply negb_true_iff in Se.
        assert (T : forallb (fun t => negb (t_offset (snd t) =? 0)%Z) xs = true); [|congruence]. apply forallb_forall. intros y Hy. apply in_map_iff in Hy as (t & <- & Hin). destruct (Hh t Hin) as (m & Hm & _ & (post & (c1 & o1 & e1 & e2 & c2 & C & Eo & _) & _)).
        cbn [loaded_track snd track_of t_offset]. change (td_offset (stored big offset t)) with (offset (v_id t)). rewrite Eo. rewrite Forall_forall in Fm. destruct (Fm m Hm) as (_ & _ & Om & _). rewrite C in Om. apply in_order_app in Om. destruct Om as (Lo & _).
        replace (_ =? 0)%Z with false by lia. reflexivity. }
      unfold mp4_find. rewrite Hp. cbn [bind]. rewrite Ht. destruct (find_fold big offset main ms ts Nt Nm Fm Hm ms xs) as (xs1 & -> & F); [auto| |].
      + apply Forall2_map_r. intros t Hin. split; [split; reflexivity|]. right. destruct (Hm t Hin) as (m & Hm' & Em & _). rewrite <- Em. now apply in_map.
      + exists xs1. split; [reflexivity|]. eapply Forall2_imp; [|exact F]. intros t y (B & [G|[]]). now split.
    - exists xs. split; [reflexivity|]. unfold search in Se. cbn [orb] in Se. apply orb_false_iff in Se as (Se & Hn). apply negb_false_iff in Se.
      destruct Hs as [(Hm & [X|(t & Hin & X)])|(_ & Hh)]; [congruence| |].
      + exfalso. rewrite forallb_forall in Se. specialize (Se (loaded_track big offset t)). cbn [loaded_track snd track_of t_offset] in Se. change (td_offset (stored big offset t)) with (offset (v_id t)) in Se. rewrite X in Se. assert (Y : negb (Z.of_N 0 =? 0)%Z = true) by (apply Se; now apply in_map). discriminate.
      + apply Forall2_map_r. intros t Hin. split; [split; reflexivity|]. destruct (Hh t Hin) as (m & Hm & Em & (post & Fo & St)). exists m, (offset (v_id t)), post. repeat split; assumption. }
  destruct K as (xs1 & -> & F1). cbn [bind]. replace (existsb (fun t => not_located false (snd t)) xs1) with false.
  2:{ symmetry. apply all_false. eapply Forall2_right; [exact F1|]. intros t y (_ & G). now apply (good_place main ms t). }
  rewrite andb_false_r. unfold mp4_extract. rewrite Hp. cbn [bind]. rewrite Ht. destruct (extract_all big offset main ms ts Nm Fm xs1 F1) as (xs2 & -> & F2). cbn [bind].
  replace (existsb (fun t => not_extracted (snd t)) xs2) with false.
  2:{ symmetry. apply all_false. eapply Forall2_right; [exact F2|]. intros t y ((_ & B2) & Fy). unfold not_extracted. rewrite Fy, B2. change (td_length (stored big offset t)) with (lenN (v_data t)). rewrite N.ltb_irrefl. apply andb_false_r. }
  destruct H as (M & C & T & l & Ll & Hi' & Hl). rewrite (rebuild_is a h p b ts xs2 x ys) with (l := l); try assumption.
  - destruct (write_exact l (map (fun t => (fst t, file_of t)) xs2)) as (F' & ->).
    + intros y Hy. rewrite map_map. cbn [fst]. replace (map (fun x0 => fst x0) xs2) with (map v_id ts); [now apply Hi'|]. clear -F2. induction F2 as [|t y ts xs ((B & _) & _) _ IH]; [reflexivity|]. cbn [map]. now rewrite B, IH.
    + intros k dd Hin. apply in_map_iff in Hin as (y & Ey & Hy). injection Ey as <- <-.
      assert (Q : exists t, In t ts /\ pulled big offset t y).
      { clear -F2 Hy. induction F2 as [|t z ts xs Hz _ IH]; [destruct Hy|]. destruct Hy as [->|Hy]; [exists t; split; [now left|exact Hz]|]. destruct (IH Hy) as (u & Hu & P). exists u. split; [now right|exact P]. }
      destruct Q as (t & Hin & ((B1 & _) & Fy)). unfold file_of. rewrite Fy, B1, <- (Hl t Hin), <- data_flat. exists []. now rewrite app_nil_r.
    + cbn [bind fst snd]. rewrite (laid_payload _ _ _ Ll). now rewrite Hc, N.eqb_refl.
  - split; [exact M|]. split; [exact C|]. split; [exact T|]. now exists l.
  - eapply Forall2_imp; [|exact F2]. intros t y ((B1 & _) & Fy). split; [exact B1|now exists (v_data t)].
Qed.

(** ** What is rebuilt *)
Lemma find_keeps big offset main ts ms : NoDup (map v_id ts) -> forall xs xs', Forall2 (base big offset) ts xs -> foldR (find_step main) ms xs = Ok xs' -> Forall2 (base big offset) ts xs'.
Proof.
  intros Nt. induction ms as [|m ms IH]; intros xs xs' F E; [apply ok_inj in E; now subst|]. cbn [foldR] in E. bindinv E. refine (IH _ _ _ E). clear IH E xs'. unfold find_step in E0.
  destruct (one_track (fun t x (B : base big offset t x) => proj1 B) (fst m) ts xs F Nt) as [((e & Ge) & _)|(t1 & t & t2 & x1 & x & x2 & Et & Ek & Gx & Sx & A & B & D)].
  - rewrite Ge in E0. apply ok_inj in E0. now subst.
  - rewrite Gx in E0. bindinv E0. bindinv E0. apply ok_inj in E0. destruct v1 as [o|]; [|now subst]. subst v. rewrite Sx, Et. apply Forall2_app; [exact A|]. constructor; [|exact D]. split; [now symmetry|exact (proj2 B)].
Qed.
Definition held (big : bool) (offset : N -> N) (t : vtrack) (x : N * track) : Prop := base big offset t x /\ exists d, t_file (snd x) = Some d.
Lemma extract_keeps big offset main ts mt : forall xs xs', Forall2 (base big offset) ts xs ->
  mapR (fun t => match get_m (fst t) mt with None => Err KeyError | Some m => do x <- mp4_extract_stream main (snd t) m; Ok (fst t, x) end) xs = Ok xs' -> Forall2 (held big offset) ts xs'.
Proof.
  induction ts as [|t ts IH]; intros xs xs' F E; inversion F as [|? x ? ys (B1 & B2) F']; subst.
  - apply ok_inj in E. subst. constructor.
  - cbn [mapR] in E. bindinv E. destruct (get_m (fst x) mt) as [m|]; [|discriminate]. bindinv E0. apply ok_inj in E0. subst v. bindinv E. apply ok_inj in E. subst xs'. constructor; [|now apply IH with ys].
    unfold mp4_extract_stream in E1. bindinv E1. destruct (t_offset (snd x) <? 0)%Z; [discriminate|]. cbv zeta in E1. destruct (seek_chunk _ _ None) as [(c, r)|]; [|discriminate]. bindinv E1. apply ok_inj in E1. subst v0.
    split; [split; [exact B1|exact B2]|]. cbn [snd t_file]. eexists. reflexivity.
Qed.
Lemma none_true {A} (p : A -> bool) l : existsb p l = false -> forall x, In x l -> p x = false.
Proof. intros H x Hx. destruct (p x) eqn:E; [|reflexivity]. assert (existsb p l = true) by (apply existsb_exists; now exists x). congruence. Qed.
Theorem mp4_sound app name big offset no_stored a h p b ts srs main out :
  mp4_ok a h p b ts -> Forall (fun t => v_id t < 2 ^ 16) ts -> mp4_srs app name big offset (mp4_file a h p b) = Ok srs ->
  mp4_restore no_stored srs main = Ok (Rebuilt out) ->
  crc32 out = crc32 (mp4_file a h p b) /\ exists data, out = mp4_file a h data b /\ lenN data = lenN p.
Proof.
  intros H Hi E R. destruct (load_is _ _ _ _ _ _ _ _ _ _ H Hi E) as (d & x & ys & L & Hc & -> & S). unfold mp4_restore, srs_rebuild in R. rewrite L in R. cbn [bind] in R.
  set (xs := map (loaded_track big offset) ts : tracks) in R. set (search := false || negb (forallb _ xs) || no_stored) in R.
  assert (Nt : NoDup (map v_id ts)) by (destruct H as (_ & _ & (ia & ib & _ & _ & (Nt & _)) & _); exact Nt).
  assert (F0 : Forall2 (base big offset) ts xs) by (apply Forall2_map_r; intros t _; now split).
  bindinv R. rename v into xs1.
  assert (F1 : Forall2 (base big offset) ts xs1).
  { destruct search; [|apply ok_inj in E0; now subst]. unfold mp4_find in E0. bindinv E0. now apply (find_keeps big offset main ts (p_tracks v) Nt xs). }
  clear E0. destruct (search && _); [discriminate|]. bindinv R. rename v into xs2. unfold mp4_extract in E0. bindinv E0. pose proof (extract_keeps big offset main ts _ _ _ F1 E0) as F2.
  destruct (existsb _ xs2) eqn:Nx; [discriminate|]. destruct H as (M & C & T & l & Ll & Hi' & Hl).
  assert (Q : forall y, In y xs2 -> exists t, In t ts /\ held big offset t y).
  { clear -F2. induction F2 as [|t z ts xs Hz _ IH]; intros y Hy; [destruct Hy|]. destruct Hy as [->|Hy]; [exists t; split; [now left|exact Hz]|]. destruct (IH y Hy) as (u & Hu & P). exists u. split; [now right|exact P]. }
  rewrite (rebuild_is a h p b ts xs2 x ys) with (l := l) in R; try assumption.
  2:{ split; [exact M|]. split; [exact C|]. split; [exact T|]. now exists l. }
  2:{ eapply Forall2_imp; [|exact F2]. intros t y ((B1 & _) & Fy). split; [exact B1|exact Fy]. }
  destruct (write_length l (map (fun t => (fst t, file_of t)) xs2)) as (data & F' & Ew & Lw).
  - intros y Hy. rewrite map_map. cbn [fst]. replace (map (fun x0 => fst x0) xs2) with (map v_id ts); [now apply Hi'|]. clear -F2. induction F2 as [|t y ts xs ((B & _) & _) _ IH]; [reflexivity|]. cbn [map]. now rewrite B, IH.
  - intros k dd Hin. apply in_map_iff in Hin as (y & Ey & Hy). injection Ey as <- <-. destruct (Q y Hy) as (t & Hin & ((B1 & B2) & (fl & Fy))). unfold file_of. rewrite Fy, B1, <- (Hl t Hin), <- data_flat.
    pose proof (none_true _ _ Nx y Hy) as Ne. cbn beta in Ne. unfold not_extracted in Ne. rewrite Fy, B2 in Ne. change (td_length (stored big offset t)) with (lenN (v_data t)) in Ne. change (td_signature (stored big offset t)) with (takeN 256 (v_data t)) in Ne.
    apply andb_false_iff in Ne as [Ne|Ne]; [|apply N.ltb_ge in Ne; exact Ne]. apply negb_false_iff, beqb_eq in Ne. apply (f_equal lenN) in Ne. rewrite lenN_takeN in Ne. change (lenN (@nil byte)) with 0 in Ne. lia.
  - rewrite Ew in R. cbn [bind fst snd] in R. destruct (_ =? _) eqn:Cr; [|discriminate]. apply N.eqb_eq in Cr. apply ok_inj in R. injection R as <-. split; [congruence|]. exists data. split; [reflexivity|]. rewrite Lw. now apply (laid_weight _ _ _ Ll).
Qed.

(** ** Creating an SRS *)
Lemma pack_be_ok k n : n < 2 ^ (8 * N.of_nat k) -> pack_be k n = Ok (be k n).
Proof. intros H. unfold pack_be. apply N.ltb_lt in H. now rewrite H. Qed.
Lemma mov_atom_ok ty d : lenN ty = 4 -> lenN d + 8 < 2 ^ 32 -> exists x, mov_atom ty d = Ok x /\ lenN x = lenN d + 8.
Proof. intros L H. unfold mov_atom. rewrite (pack_be_ok 4) by exact H. cbn [bind]. eexists. split; [reflexivity|]. rewrite !lenN_app, lenN_be, L. change (N.of_nat 4) with 4. lia. Qed.
Theorem mp4_creates app name base (big : bool) offset a h p b ts an n :
  mp4_ok a h p b ts -> ts <> [] -> Forall (fun t => v_id t < 2 ^ 16 /\ offset (v_id t) < 2 ^ 64 /\ lenN (v_data t) < (if big then 2 ^ 64 else 2 ^ 32)) ts ->
  utf8_enc app = Some an -> lenN an < 2 ^ 16 -> after_slash name base -> utf8_enc base = Some n -> lenN n < 2 ^ 16 -> lenN (mp4_file a h p b) < 2 ^ 64 ->
  exists srs, mp4_srs app name big offset (mp4_file a h p b) = Ok srs /\
  lenN srs = lenN (mp4_file a h [] b) + lenN (concat (map (fun t => takeN 256 (v_data t)) ts)) + 26 + lenN an + lenN n + lenN ts * (if big then 30 else 26).
Proof.
  intros H Hn Ft Ha La Hb En Ln L64. rewrite (srs_form _ _ _ _ _ _ _ _ _ H Hn). unfold srs_atoms.
  set (fd := fd_of name (mp4_file a h p b)). rewrite (file_accepts app fd base an n Ha La Hb En Ln eq_refl L64). cbn [bind].
  assert (Lf : lenN (file_layout (fd_flags fd) an n (fd_size fd) (fd_crc32 fd mod 2 ^ 32)) = 18 + lenN an + lenN n).
  { unfold file_layout. rewrite !lenN_app, !lenN_le. change (N.of_nat 4) with 4. change (N.of_nat 2) with 2. change (N.of_nat 8) with 8. lia. }
  destruct (mov_atom_ok (bstr "SRSF") (file_layout (fd_flags fd) an n (fd_size fd) (fd_crc32 fd mod 2 ^ 32)) eq_refl) as (xf & -> & Lx); [rewrite Lf; change (2 ^ 16) with 65536 in *; change (2 ^ 32) with 4294967296; lia|]. cbn [bind].
  assert (K : exists l, mapR (fun t => do d <- serialize_track t; mov_atom (bstr "SRST") d) (map (stored big offset) ts) = Ok l /\
    lenN (concat l) = lenN (concat (map (fun t => takeN 256 (v_data t)) ts)) + lenN ts * (if big then 30 else 26)).
  { clear -Ft. induction Ft as [|t ts (Hk & Ho & Hl) Ft IH]; [exists []; split; reflexivity|]. destruct IH as (l & El & Ll). cbn [map mapR].
    destruct (track_accepts (stored big offset t)) as (y & -> & Ly).
    - destruct big; reflexivity.
    - change (td_number (stored big offset t)) with (v_id t). change (2 ^ 16) with 65536 in Hk. change (2 ^ 32) with 4294967296. lia.
    - replace (has (td_flags (stored big offset t)) 4) with big by (destruct big; reflexivity). exact Hl.
    - exact Ho.
    - change (td_signature (stored big offset t)) with (takeN 256 (v_data t)). rewrite lenN_takeN. change (2 ^ 16) with 65536. lia.
    - cbn [bind]. replace (has (td_flags (stored big offset t)) 4) with big in Ly by (destruct big; reflexivity). change (td_signature (stored big offset t)) with (takeN 256 (v_data t)) in Ly. change (td_number (stored big offset t)) with (v_id t) in Ly.
      replace (2 ^ 16 <=? v_id t) with false in Ly by (symmetry; now apply N.leb_gt). pose proof (lenN_takeN 256 (v_data t)) as Lt.
      destruct (mov_atom_ok (bstr "SRST") y eq_refl) as (z & -> & Lz); [rewrite Ly, Lt; change (2 ^ 32) with 4294967296; destruct big; lia|]. cbn [bind]. rewrite El. cbn [bind]. eexists. split; [reflexivity|].
      cbn [concat]. rewrite !lenN_app, Ll, Lz, Ly, lenN_cons. destruct big; lia. }
  destruct K as (l & -> & Ll). cbn [bind]. eexists. split; [reflexivity|]. unfold mp4_file. rewrite !lenN_app, Lx, Ll, Lf. change (lenN (@nil byte)) with 0. lia.
Qed.

(** ** Reading ends *)
Lemma unpack_be_ends k b o : unpack_be k b o <> Err OutOfFuel.
Proof. unfold unpack_be. destruct (lenN _ =? N.of_nat k); discriminate. Qed.
Lemma next_ends check f pos : mov_next check f pos <> Err OutOfFuel.
Proof.
  unfold mov_next. destruct (_ <? _); [discriminate|]. cbv zeta. pose proof (unpack_be_ends 4 (sub pos 8 f) 0) as U. destruct (unpack_be 4 (sub pos 8 f) 0) as [n|e]; [|cbn [bind]; congruence]. cbn [bind].
  assert (K : forall r : N * bytes, (if check && negb (beqb (dropN 4 (sub pos 8 f)) (bstr "mdat")) && (lenN f <? pos + fst r) then Err ValueError else Ok (Some (mkAtom (dropN 4 (sub pos 8 f)) (fst r) (snd r) pos))) <> Err OutOfFuel) by (intros r; destruct (_ && _ && _); discriminate).
  destruct (n =? 1); [|destruct (n =? 0); cbn [bind]; apply K]. destruct (_ =? 8); [|discriminate]. pose proof (unpack_be_ends 8 (sub (pos + 8) 8 f) 0) as U'. destruct (unpack_be 8 _ 0) as [m|e]; [|cbn [bind]; congruence]. cbn [bind]. apply K.
Qed.
Lemma next_moves check f pos a : mov_next check f pos = Ok (Some a) -> a_start a = pos /\ pos + 8 <= lenN f /\ 8 <= lenN (a_header a).
Proof.
  unfold mov_next. destruct (N.ltb_spec (lenN f) (pos + 8)) as [L|L]; [discriminate|]. cbv zeta. intros H. bindinv H. bindinv H.
  destruct (_ && _ && _); [discriminate|]. apply ok_inj in H. injection H as <-. cbn [a_start a_header]. repeat split; [exact L|].
  assert (L8 : lenN (sub pos 8 f) = 8) by (rewrite lenN_sub; lia).
  destruct (v =? 1); [|destruct (v =? 0); apply ok_inj in E0; subst v0; cbn [snd]; lia]. bindinv E0. apply ok_inj in E0. subst v0. cbn [snd]. rewrite lenN_app. lia.
Qed.
Lemma next_sized check f pos a : sized f -> mov_next check f pos = Ok (Some a) -> 0 < a_size a.
Proof.
  intros Hs. unfold mov_next. destruct (N.ltb_spec (lenN f) (pos + 8)) as [L|L]; [discriminate|]. cbv zeta. intros H. bindinv H. bindinv H.
  destruct (_ && _ && _); [discriminate|]. apply ok_inj in H. injection H as <-. cbn [a_size]. destruct (N.eqb_spec v 1) as [->|N1].
  - bindinv E0. apply ok_inj in E0. subst v0. cbn [fst]. destruct (N.eqb_spec (lenN (sub (pos + 8) 8 f)) 8) as [L8|]; [|discriminate].
    unfold unpack_be in E. cbv zeta in E. destruct (N.eqb_spec (lenN (sub 0 (N.of_nat 4) (sub pos 8 f))) (N.of_nat 4)) as [L4|]; [|discriminate]. apply ok_inj in E.
    unfold unpack_be in E1. cbv zeta in E1. destruct (lenN (sub 0 (N.of_nat 8) (sub (pos + 8) 8 f)) =? N.of_nat 8); [|discriminate]. apply ok_inj in E1.
    assert (S4 : sub pos 4 f = be 4 1).
    { replace (sub pos 4 f) with (sub 0 (N.of_nat 4) (sub pos 8 f)).
      - rewrite <- (be_unbe (sub 0 (N.of_nat 4) (sub pos 8 f))), E. f_equal. rewrite lenN_length in L4. lia.
      - rewrite sub_0. unfold sub. rewrite takeN_takeN. reflexivity. }
    specialize (Hs pos S4). destruct (N.eq_0_gt_0_cases v) as [->|]; [|assumption]. exfalso. apply Hs. rewrite sub_0, (takeN_all (N.of_nat 8)) in E1 by lia.
    rewrite <- (be_unbe (sub (pos + 8) 8 f)), E1. rewrite lenN_length in L8. replace (length (sub (pos + 8) 8 f)) with 8%nat by lia. reflexivity.
  - destruct (N.eqb_spec v 0) as [->|N0]; apply ok_inj in E0; subst v0; cbn [fst]; [|lia]. destruct (beqb _ _); lia.
Qed.
Section Ends.
Context {S : Type} (check : bool) (act : S -> atom -> result (S * move)) (f : bytes).
Hypothesis act_ends : forall s a, act s a <> Err OutOfFuel.
Hypothesis act_moves : forall pos s a s', mov_next check f pos = Ok (Some a) -> act s a = Ok (s', Skip) -> 0 < a_size a.
Lemma mov_loop_ends fuel : forall pos s, (N.to_nat (lenN f - pos) < fuel)%nat -> mov_loop fuel check act f pos s <> Err OutOfFuel.
Proof.
  induction fuel as [|fuel IH]; intros pos s H; [lia|]. cbn [mov_loop]. pose proof (next_ends check f pos) as Ne. destruct (mov_next check f pos) as [[a|]|e] eqn:N1; cbn [bind]; [|discriminate|congruence].
  destruct (next_moves _ _ _ _ N1) as (Es & L & Lh). pose proof (act_ends s a) as Ae. destruct (act s a) as [(s', m)|e] eqn:A; cbn [bind fst snd]; [|congruence]. destruct m.
  - apply IH. unfold a_data. lia.
  - apply IH. pose proof (act_moves _ _ _ _ N1 A). lia.
  - apply IH. unfold a_data. lia.
Qed.
Theorem mov_reader_ends s : mov_read check act f s <> Err OutOfFuel.
Proof. unfold mov_read. apply mov_loop_ends. rewrite lenN_length. lia. Qed.
End Ends.
Theorem sized_ends {S} check (act : S -> atom -> result (S * move)) f : sized f -> (forall s a, act s a <> Err OutOfFuel) -> forall s, mov_read check act f s <> Err OutOfFuel.
Proof. intros Hs Ha s. apply mov_reader_ends; [exact Ha|]. intros pos t a s' E _. now apply next_sized in E. Qed.
Lemma bind_ends {A B} (x : result A) (g : A -> result B) : x <> Err OutOfFuel -> (forall v, g v <> Err OutOfFuel) -> bind x g <> Err OutOfFuel.
Proof. intros H K. destruct x as [v|e]; cbn [bind]; [apply K|congruence]. Qed.
Lemma table_ends k d c j s : table k d c j s <> Err OutOfFuel.
Proof. unfold table. destruct (_ || _); discriminate. Qed.
Lemma add_ends t a d r : add_table t a d = Some r -> r <> Err OutOfFuel.
Proof.
  unfold add_table. repeat (destruct (is_atom _ a)); cbn [orb]; intros H; try discriminate H; injection H as <-; repeat (apply bind_ends; [try apply unpack_be_ends; try apply table_ends|intros]); try discriminate; (destruct (_ =? 0); [apply table_ends|discriminate]).
Qed.
Lemma samples_ends l i : samples_in l i <> Err OutOfFuel.
Proof. unfold samples_in, last_length. apply bind_ends; [|intros [n|]; discriminate]. destruct (nth_error l i); [discriminate|]. destruct (rev l); discriminate. Qed.
Lemma sig_ends f t os : forall i p s, sig_loop f t os i p s <> Err OutOfFuel.
Proof. induction os as [|o os IH]; intros i p s; [discriminate|]. cbn [sig_loop]. apply bind_ends; [apply samples_ends|]. intros n. cbv zeta. destruct (_ =? SIG_SIZE); [discriminate|apply IH]. Qed.
Lemma process_ends f p : process f p <> Err OutOfFuel.
Proof. unfold process. destruct (p_cur p) as [k|]; [|discriminate]. destruct (get_m k (p_tracks p)) as [t|]; [|discriminate]. destruct (_ && _ && _ && _); [|discriminate]. apply bind_ends; [apply sig_ends|discriminate]. Qed.
Lemma track_atom_ends p a d : track_atom p a d <> Err OutOfFuel.
Proof.
  unfold track_atom. destruct (is_atom _ a).
  - apply bind_ends; [apply unpack_be_ends|]. intros k. destruct (get_m k _); discriminate.
  - destruct (p_cur p) as [k|].
    + destruct (get_m k _) as [t|]; [|discriminate]. destruct (add_table t a d) as [r|] eqn:E; [|discriminate]. apply bind_ends; [now apply add_ends in E|discriminate].
    + destruct (add_table _ a d); [|discriminate]. destruct (is_atom _ a || is_atom _ a); discriminate.
Qed.
Lemma profile_step_ends sums f p a : profile_step sums f p a <> Err OutOfFuel.
Proof.
  unfold profile_step. cbv zeta. apply bind_ends.
  - destruct (is_container a); [discriminate|]. destruct (is_atom _ a); [destruct sums; discriminate|]. apply bind_ends; [apply track_atom_ends|discriminate].
  - intros r. apply bind_ends; [apply process_ends|discriminate].
Qed.
Theorem profile_ends f : mp4_profile true f <> Err OutOfFuel.
Proof.
  unfold mp4_profile. apply mov_reader_ends; [apply profile_step_ends|]. intros pos s a s' _ H. exfalso. unfold profile_step in H. cbv zeta in H. bindinv H. bindinv H. apply ok_inj in H. injection H as _ H.
  destruct (is_container a); [apply ok_inj in E; subst v; discriminate|]. destruct (is_atom _ a); [apply ok_inj in E; subst v; discriminate|]. bindinv E. apply ok_inj in E. subst v. discriminate.
Qed.
Lemma psrs_step_ends ids f s a : psrs_step ids f s a <> Err OutOfFuel.
Proof.
  unfold psrs_step. destruct (_ || _); [discriminate|]. cbv zeta. apply bind_ends; [|discriminate]. destruct (is_atom _ a).
  - apply bind_ends; [apply unpack_be_ends|]. intros k. destruct (existsb _ ids); discriminate.
  - destruct (snd s) as [k|].
    + destruct (get_m k _) as [t|]; [|discriminate]. destruct (add_table t a _) as [r|] eqn:E; [|discriminate]. apply bind_ends; [now apply add_ends in E|discriminate].
    + destruct (add_table _ a _); [|discriminate]. destruct (is_atom _ a || is_atom _ a); discriminate.
Qed.
Theorem profile_srs_ends ids f : mp4_profile_srs ids f <> Err OutOfFuel.
Proof.
  unfold mp4_profile_srs. apply bind_ends; [|discriminate]. apply mov_reader_ends; [apply psrs_step_ends|]. intros pos s a s' _ H. exfalso. unfold psrs_step in H. destruct (_ || _); [discriminate|]. cbv zeta in H. bindinv H. discriminate.
Qed.
(** a box in 64 bits of size 0 *)
Definition bad_box : bytes := be 4 1 ++ bstr "free" ++ be 8 0.
Theorem load_forever fuel s : mov_loop fuel false (load_step bad_box) bad_box 0 s = Err OutOfFuel.
Proof. induction fuel as [|fuel IH]; [reflexivity|]. cbn [mov_loop]. change (mov_next false bad_box 0) with (@Ok (option atom) (Some (mkAtom (bstr "free") 0 bad_box 0))). cbn [bind]. exact IH. Qed.

(** ** Reading a track *)
Theorem read_track f t o ds rest sig len : counted t -> inside f t -> v_chunks t = (o, ds) :: rest ->
  exists c l, mp4_chunks (mkM (map fst (v_chunks t)) (stsc (map (fun x => (fst x, Some (snd x))) (v_table t))) (map lenN (v_samples t)) sig len) = Ok (c :: l) /\ fst c = o /\
  forall amount, ts_read f o 0 c l amount = takeN amount (v_data t).
Proof.
  intros C I E. pose proof (chunks_are t sig len C) as K. unfold expand, some2 in K. rewrite K, E. cbn [map]. do 2 eexists. split; [reflexivity|]. split; [reflexivity|]. intros amount.
  pose proof (occurs_places f t I) as P. rewrite E in P. inversion P as [|? ? P1 P2]; subst. pose proof (read_is f o [] ds rest amount P1 P2) as R.
  change (lenN (concat (@nil bytes))) with 0 in R. rewrite N.add_0_r in R. change (lenN (@nil bytes)) with 0 in R. cbn [Datatypes.app] in R. rewrite data_flat, E, flat_cons. exact R.
Qed.
Theorem extract_track f ms m o post t : movie_ok f ms -> In m ms -> from_offset m o post -> t_offset t = Z.of_N o ->
  mp4_extract [(v_id m, t)] f = Ok [(v_id m, mkTrack (t_td t) (t_offset t) (t_match t) (Some (takeN (td_length (t_td t)) (concat post))) (t_print t))].
Proof.
  intros Mo Hm Fo Ht. destruct (movie_profile f ms Mo) as (p & Hp & Et). destruct Mo as ((its & _ & (Nm & _)) & Fm). rewrite Forall_forall in Fm. destruct (Fm m Hm) as (Cm & Im & Om & _).
  unfold mp4_extract. rewrite Hp. cbn [bind mapR fst snd]. rewrite Et. replace (get_m (v_id m) (map final ms)) with (Some (snd (final m))).
  2:{ symmetry. apply get_in_m; [rewrite map_map; exact Nm|]. apply in_map_iff. now exists m. }
  cbn [final snd]. unfold tables. rewrite (extract_at f m t o post _ _ Cm Im Om Fo Ht). reflexivity.
Qed.
