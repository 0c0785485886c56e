(** Mp4Facts: proofs about rebuilding MP4 samples. *)
From Verif Require Import Base BaseFacts Crc CrcFacts SrsRec SrsRecSpec SrsRecFacts Srs SrrFacts RecovFacts MatchFacts StrmFacts Mp4 StrmSpec Mp3Spec Mp4Spec Mp4Tables Mp4Read.
From Coq Require Import Permutation Sorted.

(** ** Profiling *)
Definition put (p : pstate) (m d c : N) : pstate := mkP (p_tracks p) (p_cur p) (p_done p) m d c.
Lemma process_put f p m d c : process f (put p m d c) = do q <- process f p; Ok (put q m d c).
Proof.
  unfold process, put. cbn [p_cur p_tracks p_done p_meta p_mdat p_crc]. destruct (p_cur p) as [k|] eqn:C; [|cbn [bind]; now rewrite C]. destruct (get_m k (p_tracks p)) as [t|]; [|cbn [bind]; now rewrite C].
  destruct (negb (p_done p) && _ && _ && _); [|cbn [bind]; now rewrite C]. destruct (mp4_signature f t); reflexivity.
Qed.
Lemma track_put p m d c a x : track_atom (put p m d c) a x = do q <- track_atom p a x; Ok (put q m d c).
Proof.
  unfold track_atom, put. cbn [p_cur p_tracks p_done p_meta p_mdat p_crc]. destruct (is_atom _ a).
  - destruct (unpack_be 4 x 12) as [k|]; [|reflexivity]. cbn [bind]. destruct (get_m k (p_tracks p)); reflexivity.
  - destruct (p_cur p) as [k|] eqn:C.
    + destruct (get_m k (p_tracks p)) as [t|]; [|cbn [bind]; now rewrite C]. destruct (add_table t a x) as [[t'|e]|]; try reflexivity. cbn [bind]. now rewrite C.
    + destruct (add_table _ a x); try reflexivity. cbn [bind]. now rewrite C.
Qed.
Lemma process_mk f p m d c : process f (mkP (p_tracks p) (p_cur p) (p_done p) m d c) = do q <- process f p; Ok (put q m d c).
Proof. apply process_put. Qed.
Lemma track_mk p m d c a x : track_atom (mkP (p_tracks p) (p_cur p) (p_done p) m d c) a x = do q <- track_atom p a x; Ok (put q m d c).
Proof. apply track_put. Qed.
Lemma process_twice f p q : process f p = Ok q -> process f q = Ok q.
Proof.
  unfold process. destruct (p_cur p) as [k|] eqn:C.
  - destruct (get_m k (p_tracks p)) as [t|] eqn:G.
    + destruct (negb (p_done p) && _ && _ && _) eqn:B.
      * intros H. bindinv H. apply ok_inj in H. subst q. cbn [p_cur p_tracks p_done]. now rewrite get_set_m.
      * intros H. apply ok_inj in H. subst q. now rewrite C, G, B.
    + intros H. apply ok_inj in H. subst q. now rewrite C, G.
  - intros H. apply ok_inj in H. subst q. now rewrite C.
Qed.
Definition meta1 (q : part) : N := lenN (q_head q) + (if q_enter q || is_mdat q then 0 else lenN (q_data q)).
Definition mdat1 (q : part) : N := if q_enter q then 0 else if is_mdat q then q_size q else 0.
Definition crc1 (sums : bool) (c : N) (q : part) : N :=
  let c := zcrc32 (q_head q) c in if q_enter q || (is_mdat q && negb sums) then c else zcrc32 (q_data q) c.
Definition profile' (sums : bool) (f : bytes) (p : pstate) (q : part) : result pstate :=
  do p' <- (if q_enter q || is_mdat q then process f p else titem f p (q_ty q, q_data q));
  Ok (put p' (p_meta p + meta1 q) (p_mdat p + mdat1 q) (crc1 sums (p_crc p) q)).
Lemma is_container_in a : is_container a = true <-> In (a_type a) containers.
Proof.
  unfold is_container, is_atom. rewrite !orb_true_iff, !beqb_eq. cbn [In containers]. split.
  - intros [[[[ E | E ] | E ] | E ] | E ]; rewrite E; tauto.
  - intros [<-|[<-|[<-|[<-|[<-|[]]]]]]; tauto.
Qed.
Lemma container_at pos q : is_container (q_atom pos q) = true <-> In (q_ty q) containers.
Proof. apply is_container_in. Qed.
Lemma profile_acts movie sums f ps : Forall (flat_part movie) ps -> acts (profile_step sums f) (profile' sums f) f ps.
Proof.
  intros F p pos s Hp Rc. rewrite Forall_forall in F. specialize (F p Hp). unfold flat_part in F. unfold profile', meta1, mdat1, crc1, move_ok.
  unfold profile_step. cbv zeta. change (is_atom (bstr "mdat") (q_atom pos p)) with (is_mdat p). change (a_header (q_atom pos p)) with (q_head p). change (a_size (q_atom pos p)) with (q_size p).
  destruct (q_enter p) eqn:E.
  - exists Child. split; [reflexivity|]. rewrite (proj2 (container_at pos p) F). cbn [orb]. cbn [bind fst snd]. rewrite !N.add_0_r.
    rewrite (process_mk f s). destruct (process f s); reflexivity.
  - destruct F as (Nc & Ns & _). rewrite (Rc eq_refl). replace (is_container (q_atom pos p)) with false.
    2:{ symmetry. destruct (is_container (q_atom pos p)) eqn:I; [|reflexivity]. now apply container_at in I. }
    cbn [orb]. destruct (is_mdat p) eqn:M; cbn [andb].
    + destruct sums; cbn [negb].
      * exists ReadOn. split; [discriminate|]. cbn [bind fst snd p_tracks p_cur p_done p_meta p_mdat p_crc]. rewrite N.add_0_r. rewrite (process_mk f s). destruct (process f s); reflexivity.
      * exists Skip. split; [discriminate|]. cbn [bind fst snd p_tracks p_cur p_done p_meta p_mdat p_crc]. rewrite N.add_0_r. rewrite (process_mk f s). destruct (process f s); reflexivity.
    + exists ReadOn. split; [discriminate|]. cbn [p_tracks p_cur p_done p_meta p_mdat p_crc]. unfold titem. cbn [fst snd].
      rewrite (track_mk s). change (track_atom s (q_atom pos p) (q_data p)) with (track_atom s (at_type (q_ty p)) (q_data p)).
      destruct (track_atom s (at_type (q_ty p)) (q_data p)) as [s'|]; [|reflexivity]. cbn [bind fst snd]. rewrite process_put, N.add_0_r, N.add_assoc.
      destruct (process f s'); reflexivity.
Qed.
Definition sum1 (g : part -> N) (ps : list part) : N := fold_right (fun q n => g q + n) 0 ps.
Lemma put_put p a b c d e g : put (put p a b c) d e g = put p d e g. Proof. reflexivity. Qed.
Lemma titem_put f p m d c it : titem f (put p m d c) it = do q <- titem f p it; Ok (put q m d c).
Proof. unfold titem. rewrite track_put. destruct (track_atom p (at_type (fst it)) (snd it)) as [q|]; [|reflexivity]. cbn [bind]. apply process_put. Qed.
Lemma titem_settled f p it q : titem f p it = Ok q -> process f q = Ok q.
Proof. unfold titem. intros H. bindinv H. now apply process_twice with v. Qed.
Lemma profile_fold sums f ps : forall p m d c, process f p = Ok p ->
  foldR (profile' sums f) ps (put p m d c) = do q <- foldR (titem f) (items ps) p; Ok (put q (m + sum1 meta1 ps) (d + sum1 mdat1 ps) (fold_left (crc1 sums) ps c)).
Proof.
  induction ps as [|x ps IH]; intros p m d c H; [cbn; now rewrite !N.add_0_r|].
  cbn [foldR sum1 fold_right fold_left]. fold (sum1 meta1 ps) (sum1 mdat1 ps). unfold profile' at 1. cbn [p_meta p_mdat p_crc put]. fold (put p m d c). unfold items. cbn [filter].
  destruct (q_enter x || is_mdat x) eqn:E.
  - replace (negb (q_enter x) && negb (is_mdat x)) with false by (now rewrite <- negb_orb, E). fold (items ps). rewrite process_put, H. cbn [bind]. rewrite put_put, IH by exact H. now rewrite !N.add_assoc.
  - replace (negb (q_enter x) && negb (is_mdat x)) with true by (now rewrite <- negb_orb, E). cbn [map foldR]. fold (items ps). rewrite titem_put.
    destruct (titem f p (q_ty x, q_data x)) as [q|] eqn:T; [|reflexivity]. cbn [bind]. rewrite put_put, IH by (now apply titem_settled in T). now rewrite !N.add_assoc.
Qed.
Lemma profile_is sums f movie ps ts : reads true f 0 ps -> pflat ps = f -> Forall (flat_part movie) ps -> tracks_in ts (items ps) -> Forall (fun t => counted t /\ inside f t) ts ->
  exists cur done, mp4_profile sums f = Ok (mkP (map final ts) cur done (sum1 meta1 ps) (sum1 mdat1 ps) (fold_left (crc1 sums) ps 0)).
Proof.
  intros R E F T Hf. unfold mp4_profile. rewrite (read_run true _ (profile' sums f) f ps _ R E (profile_acts movie sums f ps F)).
  destruct (titem_tracks f ts (items ps) T Hf) as (cur & done & Q).
  change (mkP [] None false 0 0 0) with (put (mkP [] None false 0 0 0) 0 0 0) at 1. rewrite profile_fold by reflexivity. rewrite Q. cbn [bind]. now exists cur, done.
Qed.
Lemma movie_profile f ms : movie_ok f ms -> exists p, mp4_profile false f = Ok p /\ p_tracks p = map final ms.
Proof.
  intros ((its & B & T) & F). destruct (boxes_flat true its f B) as (ps & E & Ei & Fa & R).
  destruct (profile_is false f true ps ms) as (cur & done & Q); try assumption.
  - apply (R true f [] []). now rewrite app_nil_r.
  - now rewrite Ei.
  - eapply Forall_impl; [|exact F]. intros m (A & C & _). now split.
  - eexists. split; [exact Q|]. reflexivity.
Qed.

(** ** The chunks of the tracks and the layout of mdat *)
Notation lay := (list (N * (N * list bytes))).
Lemma laid_place l : forall (pre : bytes) p post k o ds, laid_out (lenN pre) l p -> In (k, (o, ds)) l -> occurs (concat ds) (pre ++ p ++ post) o.
Proof.
  induction l as [|(k', (o', ds')) l IH]; intros pre p post k o ds H Hin; [destruct Hin|]. inversion H as [|? ? ? ? q Ne L]; subst. destruct Hin as [E|Hin].
  - injection E as <- <- <-. exists pre, (q ++ post). split; [now rewrite <- app_assoc|reflexivity].
  - specialize (IH (pre ++ concat ds') q post k o ds). rewrite lenN_app in IH. specialize (IH L Hin). now rewrite <- !app_assoc in IH |- *.
Qed.
Lemma chunks_in k l o ds : In (o, ds) (chunks_of k l) -> In (k, (o, ds)) l.
Proof.
  unfold chunks_of. intros H. apply in_map_iff in H as ((k', c) & E & H). apply filter_In in H as (H & B). cbn in E, B. apply N.eqb_eq in B. now subst.
Qed.
Definition gather (l : lay) (ids : list N) : lay := concat (map (fun k => filter (fun x => fst x =? k) l) ids).
Lemma gather_none x l ids : ~ In (fst x) ids -> gather (x :: l) ids = gather l ids.
Proof.
  unfold gather. induction ids as [|k ids IH]; intros H; [reflexivity|]. cbn [map concat]. rewrite IH by (intros X; apply H; now right). f_equal. cbn [filter].
  replace (fst x =? k) with false; [reflexivity|]. symmetry. apply N.eqb_neq. intros E. apply H. now left.
Qed.
Lemma gather_perm l : forall ids, NoDup ids -> (forall x, In x l -> In (fst x) ids) -> Permutation (gather l ids) l.
Proof.
  induction l as [|x l IH]; intros ids Nd H.
  - clear. induction ids as [|k ids IHi]; [constructor|]. exact IHi.
  - destruct (in_split _ _ (H x (or_introl eq_refl))) as (i1 & i2 & E). pose proof (IH ids Nd (fun y Hy => H y (or_intror Hy))) as P.
    subst ids. assert (N1 : ~ In (fst x) i1) by (intros X; apply NoDup_remove_2 in Nd; apply Nd, in_or_app; now left).
    assert (N2 : ~ In (fst x) i2) by (intros X; apply NoDup_remove_2 in Nd; apply Nd, in_or_app; now right).
    assert (A : forall l ids ids', gather l (ids ++ ids') = gather l ids ++ gather l ids') by (intros; unfold gather; now rewrite map_app, concat_app).
    rewrite A in P |- *. change (fst x :: i2) with ([fst x] ++ i2) in *. rewrite A in P |- *. rewrite (gather_none x l i1 N1), (gather_none x l i2 N2).
    unfold gather at 2. cbn [map concat filter]. rewrite N.eqb_refl, app_nil_r. unfold gather at 2 in P. cbn [map concat] in P. rewrite app_nil_r in P.
    cbn [Datatypes.app]. apply Permutation_sym, Permutation_cons_app, Permutation_sym, P.
Qed.
(** the sizes *)
Definition weight (l : lay) : N := sumN (map (fun x => lenN (concat (snd (snd x)))) l).
Lemma weight_app a b : weight (a ++ b) = weight a + weight b.
Proof. unfold weight, sumN. induction a as [|x a IH]; [reflexivity|]. cbn [Datatypes.app map fold_right]. rewrite IH. lia. Qed.
Lemma weight_perm a b : Permutation a b -> weight a = weight b.
Proof. unfold weight. induction 1; cbn [map sumN fold_right] in *; unfold sumN in *; lia. Qed.
Lemma laid_weight l : forall pos p, laid_out pos l p -> weight l = lenN p.
Proof.
  induction l as [|(k, (o, ds)) l IH]; intros pos p H; inversion H as [|? ? ? ? q Ne L]; subst; [reflexivity|]. rewrite lenN_app, <- (IH _ _ L). reflexivity.
Qed.
Lemma flat_weight k l : lenN (flat (chunks_of k l)) = weight (filter (fun x => fst x =? k) l).
Proof.
  unfold chunks_of. induction (filter (fun x => fst x =? k) l) as [|x m IH]; [reflexivity|]. cbn [map]. rewrite flat_cons, lenN_app, IH. reflexivity.
Qed.
Lemma tracks_weight (ts : list vtrack) l p pos : NoDup (map v_id ts) -> laid_out pos l p -> (forall x, In x l -> In (fst x) (map v_id ts)) ->
  (forall t, In t ts -> v_chunks t = chunks_of (v_id t) l) -> sumN (map (fun t => lenN (v_data t)) ts) = lenN p.
Proof.
  intros Nd L Hi Hc. rewrite <- (laid_weight _ _ _ L), <- (weight_perm _ _ (gather_perm l _ Nd Hi)). clear Nd L Hi. unfold gather.
  induction ts as [|t ts IH]; [reflexivity|]. cbn [map concat]. rewrite weight_app, <- flat_weight, <- IH by (intros x Hx; apply Hc; now right).
  rewrite <- (Hc t (or_introl eq_refl)). reflexivity.
Qed.

(** ** Profiling a sample *)
Lemma mdat_reads check f (a h p b : bytes) : mdat_header h p b -> f = mp4_file a h p b -> reads check f (lenN a) [mkPart (bstr "mdat") (lenN h + lenN p) h p false].
Proof.
  intros M ->. unfold mp4_file. cbn [reads q_ty q_size q_head q_data q_enter q_all q_atom]. unfold q_all. cbn [q_head q_data]. repeat split.
  - destruct M as [Hh|(-> & ->)].
    + apply (next_header check _ a (bstr "mdat") _ h (p ++ b) eq_refl Hh); [reflexivity|]. intros _ X. vm_compute in X. discriminate.
    + apply next_open. now rewrite app_nil_r.
  - intros _. now rewrite lenN_app.
  - discriminate.
  - rewrite (app_assoc a). apply sub_app_exact; [now rewrite lenN_app|reflexivity].
  - destruct M as [Hh|(-> & ->)]; [now apply (header_len (bstr "mdat") _ _ eq_refl Hh)|vm_compute; discriminate].
Qed.
Lemma sum1_app g a b : sum1 g (a ++ b) = sum1 g a + sum1 g b.
Proof. induction a as [|x a IH]; [reflexivity|]. cbn [Datatypes.app sum1 fold_right]. fold (sum1 g (a ++ b)) (sum1 g a). rewrite IH. lia. Qed.
Lemma crc_fold ps : forall c, c < 2 ^ 32 -> Forall (fun q => q_enter q = true -> q_data q = []) ps -> fold_left (crc1 true) ps c = zcrc32 (pflat ps) c.
Proof.
  induction ps as [|q ps IH]; intros c L F; [cbn; symmetry; now apply zcrc32_nil|]. inversion F as [|? ? Fq F']; subst. cbn [fold_left]. rewrite pflat_cons, zcrc32_app, <- IH; [|now apply zcrc32_lt|exact F'].
  f_equal. unfold crc1, q_all. cbn [negb]. rewrite andb_false_r, orb_false_r. rewrite zcrc32_app. destruct (q_enter q); [|reflexivity]. rewrite (Fq eq_refl). symmetry. apply zcrc32_nil. now apply zcrc32_lt.
Qed.
Lemma reads_enter check f ps : forall pos, reads check f pos ps -> Forall (fun q => q_enter q = true -> q_data q = []) ps.
Proof. induction ps as [|q ps IH]; intros pos H; [constructor|]. destruct H as (_ & _ & En & _ & _ & H). constructor; [exact En|now apply IH with (pos + lenN (q_all q))]. Qed.
Lemma meta_flat ps : Forall (flat_part false) ps -> Forall (fun q => q_enter q = true -> q_data q = []) ps -> sum1 meta1 ps = lenN (pflat ps).
Proof.
  induction ps as [|q ps IH]; intros F G; [reflexivity|]. inversion F as [|? ? Fq F']; subst. inversion G as [|? ? Gq G']; subst. cbn [sum1 fold_right]. fold (sum1 meta1 ps). rewrite (IH F' G'), pflat_cons, lenN_app.
  f_equal. unfold meta1, q_all. rewrite lenN_app. unfold flat_part in Fq. destruct (q_enter q); cbn [orb].
  - now rewrite (Gq eq_refl).
  - destruct Fq as (_ & _ & ->); reflexivity.
Qed.
Definition sample_data_of (name : text) (f : bytes) : file_data :=
  {| fd_flags := NEW_FLAGS; fd_appname := []; fd_sample_name := name; fd_size := lenN f; fd_crc32 := crc32 f |}.
Lemma inside_sample a h p b ts : mp4_ok a h p b ts -> Forall (fun t => counted t /\ inside (mp4_file a h p b) t) ts.
Proof.
  intros (_ & C & _ & l & L & _ & Hc). rewrite Forall_forall in C |- *. intros t Ht. split; [now apply C|]. intros o ds Hin. rewrite (Hc t Ht) in Hin. apply chunks_in in Hin.
  rewrite <- lenN_app in L. pose proof (laid_place l (a ++ h) p b _ _ _ L Hin) as X. unfold mp4_file. now rewrite <- app_assoc in X.
Qed.
Lemma profile_sample name a h p b ts : mp4_ok a h p b ts -> mp4_profile_sample name (mp4_file a h p b) = Ok (sample_data_of name (mp4_file a h p b), map final ts).
Proof.
  intros H. pose proof (inside_sample a h p b ts H) as Hin. destruct H as (M & C & (ia & ib & Ba & Bb & T) & l & L & Hi & Hc).
  destruct (boxes_flat _ _ _ Ba) as (pa & Ea & Eia & Fa & Ra). destruct (boxes_flat _ _ _ Bb) as (pb & Eb & Eib & Fb & Rb).
  set (f := mp4_file a h p b) in *. set (q := mkPart (bstr "mdat") (lenN h + lenN p) h p false).
  assert (R : reads true f 0 (pa ++ [q] ++ pb)).
  { apply reads_app. split; [now apply (Ra true f [] (h ++ p ++ b))|]. rewrite Ea, N.add_0_l. apply reads_app. split; [apply (mdat_reads true f a h p b M eq_refl)|].
    specialize (Rb true f (a ++ h ++ p) []). rewrite lenN_app in Rb. unfold pflat, q_all. cbn [map concat q q_head q_data]. rewrite app_nil_r. apply Rb. unfold f, mp4_file. now rewrite app_nil_r, <- !app_assoc. }
  assert (E : pflat (pa ++ [q] ++ pb) = f).
  { rewrite !pflat_app, Ea, Eb. unfold pflat, q_all. cbn [map concat q q_head q_data]. unfold f, mp4_file. now rewrite app_nil_r, <- !app_assoc. }
  destruct (profile_is true f true (pa ++ [q] ++ pb) ts R E) as (cur & done & Q).
  - apply Forall_app. split; [|apply Forall_app; split].
    + eapply Forall_impl; [|exact Fa]. intros x Hx. unfold flat_part in *. destruct (q_enter x); [exact Hx|]. destruct Hx as (A & B & _). repeat split; try assumption. discriminate.
    + constructor; [|constructor]. unfold flat_part. cbn [q q_enter q_ty]. repeat split; try discriminate; cbn [In containers]; intros X; repeat destruct X as [X|X]; try (vm_compute in X; discriminate); destruct X.
    + eapply Forall_impl; [|exact Fb]. intros x Hx. unfold flat_part in *. destruct (q_enter x); [exact Hx|]. destruct Hx as (A & B & _). repeat split; try assumption. discriminate.
  - rewrite !items_app, Eia, Eib. exact T.
  - exact Hin.
  - pose proof (reads_enter _ _ _ _ R) as En. unfold mp4_profile_sample. rewrite Q. cbn [bind p_meta p_tracks p_mdat p_crc].
    rewrite crc_fold by (reflexivity || exact En). rewrite E. apply Forall_app in En as (Ena & En). apply Forall_app in En as (_ & Enb).
    assert (S : sum1 meta1 (pa ++ [q] ++ pb) + sumN (map (fun t => m_length (snd t)) (map final ts)) = lenN f).
    { rewrite !sum1_app, (meta_flat pa Fa Ena), (meta_flat pb Fb Enb), Ea, Eb. rewrite map_map. change (fun x => m_length (snd (final x))) with (fun t => lenN (v_data t)).
      rewrite (tracks_weight ts l p _ (proj1 T) L Hi Hc). cbn [sum1 fold_right]. unfold meta1. change (is_mdat q) with true. rewrite orb_true_r. cbn [q q_head].
      unfold f, mp4_file. rewrite !lenN_app. lia. }
    rewrite S, N.ltb_irrefl. cbn [andb]. rewrite N.eqb_refl. reflexivity.
Qed.
