(** AviMain: which AVI samples are rebuilt, what is rebuilt, and that reading ends. *)
From Verif Require Import Base BaseFacts Crc CrcFacts SrsRec SrsRecSpec SrsRecFacts Srs SrrFacts RecovFacts StrmFacts Avi StrmSpec Mp3Spec AviSpec AviRead AviSrs AviOut AviExtract AviFind.

(** ** Rebuilding from the data of the tracks *)
Lemma is_table (ts : tracks) : NoDup (map fst ts) -> ts = table (fun n => match get_track n ts with Ok t => t | Err _ => new_track n end) (map fst ts).
Proof.
  induction ts as [|(k, t) ts IH]; intros Nd; [reflexivity|]. cbn [map fst] in Nd |- *. inversion Nd as [|? ? Nk Nd']; subst. cbn [table map]. cbn [get_track]. rewrite N.eqb_refl. f_equal.
  rewrite IH at 1 by exact Nd'. apply table_ext. intros n Hn. destruct (N.eqb_spec k n) as [->|]; [contradiction|reflexivity].
Qed.
Lemma get_in k t (ts : tracks) : NoDup (map fst ts) -> In (k, t) ts -> get_track k ts = Ok t.
Proof.
  induction ts as [|(q, w) ts IH]; intros Nd H; [destruct H|]. cbn [map fst] in Nd. inversion Nd as [|? ? Nk Nd']; subst. cbn [get_track]. destruct H as [H|H].
  - injection H as -> ->. now rewrite N.eqb_refl.
  - destruct (N.eqb_spec q k) as [->|]; [|now apply IH]. exfalso. apply Nk. apply in_map_iff. now exists (k, t).
Qed.
Theorem avi_back ap name big offset its srs (ts : tracks) : avi_ok its -> avi_srs ap name big offset (file_of its) = Ok srs ->
  NoDup (map fst ts) -> Forall (fun t => t_file (snd t) <> None) ts ->
  (forall n, has_stream n its -> exists t d, In (n, t) ts /\ t_file t = Some d /\ starts (data_of n its) d) ->
  avi_rebuild ts srs = Ok (file_of its, file_of its).
Proof.
  intros H E Nd Fs Hd. destruct (load_is ap name big offset its srs H E) as (ns & d & x & ys & _ & _ & _ & _ & -> & A).
  rewrite (is_table ts Nd). apply rebuild_exact with (h := fun n => match get_track n ts with Ok t => fl (t_file t) | Err _ => [] end); [exact H|exact A|exact Nd| |].
  - intros n Hn. apply in_map_iff in Hn as ((k, t) & <- & Hi). cbn [fst]. rewrite (get_in k t ts Nd Hi). rewrite Forall_forall in Fs. specialize (Fs _ Hi). cbn [snd] in Fs. destruct (t_file t); [reflexivity|contradiction].
  - intros n Hn. destruct (Hd n Hn) as (t & e & Hi & Hf & St). split; [apply in_map_iff; now exists (n, t)|]. rewrite (get_in n t ts Nd Hi), Hf. exact St.
Qed.

(** ** The whole *)
Lemma first_held_held n d ms o d1 : first_held n d ms o d1 -> held n d ms o d1.
Proof. intros (pre & cc & d2 & pad & post & A & B & C & D & E & _). now exists pre, cc, d2, pad, post. Qed.
Lemma starts_common (d h x : bytes) : starts d x -> starts h x -> lenN d <= lenN h -> starts d h.
Proof.
  intros (r & ->) (q & E) L. exists (dropN (lenN d) h). rewrite <- (takeN_dropN (lenN d) h) at 1. f_equal. transitivity (takeN (lenN d) (h ++ q)); [symmetry; now apply takeN_app_le|]. rewrite <- E. now apply takeN_app_exact.
Qed.
Lemma reach_zero n pos its : has_stream n its -> reach n 0 pos its.
Proof. intros (cc & d & pad & Hi & Sn). apply in_split in Hi as (a & b & ->). exists a, cc, d, pad, b. split; [reflexivity|]. split; [exact Sn|]. lia. Qed.
Lemma none_of (p : N * track -> bool) g ns : (forall n, In n ns -> p (n, g n) = false) -> existsb p (table g ns) = false.
Proof. intros H. apply not_true_is_false. intros X. apply existsb_exists in X as (y & Hy & Py). unfold table in Hy. apply in_map_iff in Hy as (n & <- & Hn). rewrite H in Py by exact Hn. discriminate Py. Qed.
Section Exact.
Variables (its ms : list item) (main : bytes) (big : bool) (offset : N -> N).
Hypothesis H : avi_ok its.
Hypothesis Mo : movie_ok main ms.
Variables (ns0 : list N).
Hypothesis Hn : lists its ns0.
Definition td0 (n : N) : track_data := if in_dec N.eq_dec n ns0 then stored big offset its n else t_td (new_track n).
Lemma td0_in n : In n ns0 -> td0 n = stored big offset its n. Proof. unfold td0. now destruct (in_dec N.eq_dec n ns0). Qed.
Lemma td0_out n : ~ In n ns0 -> td0 n = t_td (new_track n). Proof. unfold td0. now destruct (in_dec N.eq_dec n ns0). Qed.
Lemma data_in n : In n ns0 -> data_of n its <> []. Proof. intros X. apply H. now apply Hn. Qed.
(** extracting and rebuilding *)
Lemma extract_all at_ o g ns x ys fd : Forall item_ok (added x ys) -> fd_crc32 fd = crc32 (file_of its) ->
  (forall n, has_stream n its -> exists d1, held n (data_of n its) ms (at_ n) d1 /\ (at_ n = o -> d1 = [])) -> (exists n, has_stream n its /\ at_ n = o) -> (forall n, has_stream n its -> o <= at_ n) ->
  NoDup ns -> (forall n, ~ In n ns -> g n = new_track n) -> (forall n, In n ns0 -> In n ns) ->
  (forall n, In n ns -> ~ In n ns0 -> forall pre post, ms = pre ++ post -> lenN (file_of pre) + 8 = o -> has_stream n post) ->
  (forall n, t_file (g n) = None /\ t_td (g n) = td0 n /\ (In n ns0 -> t_offset (g n) = Z.of_N (at_ n)) /\ (~ In n ns0 -> t_offset (g n) = 0%Z)) ->
  (do ts <- avi_extract (table g ns) main; if existsb (fun t => not_extracted (snd t)) ts then Ok (Abort 4)
   else do r <- avi_rebuild ts (encs true (srs_items (added x ys) its)); Ok (if crc32 (snd r) =? fd_crc32 fd then Rebuilt (fst r) else Mismatch (fst r)))
  = Ok (Rebuilt (file_of its)).
Proof.
  intros A Cf Hh (m & Hm & Em) Ho Nd New Hin Post G. destruct (Hh m Hm) as (d1 & (pre & cc & d2 & pad & post & Ems & Sn & N2 & Eo & _) & D1). specialize (D1 Em). subst d1. cbn [app lenN] in Ems, Eo. rewrite Em, N.add_0_r in Eo.
  assert (Lo : o < 2 ^ 63).
  { destruct Mo as (F & L & r & E & _). rewrite E, Ems, file_app, file_cons in L. cbn [item_bytes] in L. rewrite !lenN_app, lenN_le in L. rewrite Ems in F. apply Forall_app in F as (_ & F). apply Forall_inv in F. destruct F as ((L4 & _) & _). destruct d2; [contradiction|]. rewrite lenN_cons in L. lia. }
  assert (Mi : min_offset (table g ns) = o).
  { apply min_is; [exact Lo| | |lia].
    - intros n _. destruct (G n) as (_ & _ & G3 & G4). destruct (in_dec N.eq_dec n ns0) as [I|I]; [right; rewrite (G3 I); specialize (Ho n (proj1 (proj2 Hn n) I)); lia|left; now apply G4].
    - exists m. split; [apply Hin; now apply Hn|]. rewrite (proj1 (proj2 (proj2 (G m)))) by now apply Hn. now rewrite Em. }
  destruct (extract_is main ms g ns o pre cc d2 pad post Mo Nd New (fun n _ => proj1 (G n)) Ems Eo N2 Mi) as (g' & ns' & E & Nd' & Sub & Only & K & Fin).
  match goal with |- bind _ ?b = _ => transitivity (bind (Ok (table g' ns' : tracks)) b); [f_equal; exact E|] end. cbn [bind].
  assert (Op : o - 8 = lenN (file_of pre)) by lia. rewrite Op in K, Fin. destruct Mo as (Fo & _).
  assert (Has : forall n, In n ns' -> t_file (g' n) <> None).
  { destruct Fin as [Fin|Fin]; [intros n I; specialize (Fin n I); unfold complete in Fin; destruct (t_file (g' n)); discriminate|]. intros n I. apply Fin. destruct (G n) as (_ & _ & G3 & G4). destruct (in_dec N.eq_dec n ns0) as [J|J].
    - rewrite (G3 J). destruct (Hh n (proj1 (proj2 Hn n) J)) as (e & Hd & _). apply (held_from n (data_of n its) ms (at_ n) e pre (Chk cc d2 pad :: post) Fo Hd Ems). specialize (Ho n (proj1 (proj2 Hn n) J)). lia.
    - rewrite (G4 J). apply reach_zero. destruct (Only n I) as [X|X]; [|exact X]. apply (Post n X J pre _ Ems). lia. }
  assert (Data : forall n, In n ns0 -> starts (data_of n its) (fl (t_file (g' n)))).
  { intros n I. destruct (K n) as (_ & (_ & (q & Q) & _ & Z)). destruct (G n) as (_ & G2 & G3 & _). rewrite G2, (td0_in n I) in Z. rewrite (G3 I) in *. cbn [app] in *. change (td_length (stored big offset its n)) with (lenN (data_of n its)) in Z.
    destruct (Hh n (proj1 (proj2 Hn n) I)) as (e & Hd & _). destruct (held_from n (data_of n its) ms (at_ n) e pre (Chk cc d2 pad :: post) Fo Hd Ems) as (St & _); [specialize (Ho n (proj1 (proj2 Hn n) I)); lia|].
    destruct Z as [Z|Z]; [|rewrite Z; exact St]. apply (starts_common _ _ _ St); [now exists q|exact Z]. }
  rewrite (none_of (fun t => not_extracted (snd t))).
  2: { intros n I. cbn [snd]. unfold not_extracted. destruct (K n) as ((T & _) & _). rewrite T. destruct (G n) as (_ & G2 & _). rewrite G2. destruct (in_dec N.eq_dec n ns0) as [J|J]; [|rewrite (td0_out n J); reflexivity]. rewrite (td0_in n J).
       specialize (Has n I). destruct (Data n J) as (q & Q). destruct (t_file (g' n)) as [e|]; [|contradiction]. cbn [fl] in Q. change (td_length (stored big offset its n)) with (lenN (data_of n its)). replace (lenN e <? lenN (data_of n its)) with false by (rewrite Q, lenN_app; lia). apply andb_false_r. }
  rewrite (rebuild_exact x ys its g' ns' (fun n => fl (t_file (g' n))) H A Nd').
  - cbn [bind fst snd]. rewrite Cf, N.eqb_refl. reflexivity.
  - intros n I. specialize (Has n I). destruct (t_file (g' n)); [reflexivity|contradiction].
  - intros n Hs. apply Hn in Hs. split; [apply Sub, Hin, Hs|now apply Data].
Qed.
End Exact.
Theorem avi_exact ap name big offset no_stored its srs main ms :
  avi_ok its -> avi_srs ap name big offset (file_of its) = Ok srs -> movie_ok main ms ->
  (exists at_ o, in_movie first_held its ms at_ o /\ goes_on ms o /\ (no_stored = true \/ exists n, has_stream n its /\ offset n = 0)) \/
  (no_stored = false /\ exists o, in_movie held its ms offset o) ->
  avi_restore no_stored srs main = Ok (Rebuilt (file_of its)).
Proof.
  intros H E Mo Hs. destruct (load_is ap name big offset its srs H E) as (ns & fd & x & ys & Hn & Ne & L & Cf & -> & A). unfold avi_restore, srs_rebuild. rewrite L. cbn [bind orb].
  set (g0 := fun n => if in_dec N.eq_dec n ns then loaded big offset its n else new_track n).
  assert (Tg : table (loaded big offset its) ns = table g0 ns) by (apply table_ext; intros n I; unfold g0; now destruct (in_dec N.eq_dec n ns)). rewrite Tg. clear Tg.
  assert (G0 : forall n, t_file (g0 n) = None /\ t_td (g0 n) = td0 its big offset ns n /\ (In n ns -> t_offset (g0 n) = Z.of_N (offset n)) /\ (~ In n ns -> t_offset (g0 n) = 0%Z)).
  { intros n. unfold g0, td0. destruct (in_dec N.eq_dec n ns); (split; [reflexivity|]); (split; [reflexivity|]); split; intros X; try reflexivity; contradiction. }
  assert (New0 : forall n, ~ In n ns -> g0 n = new_track n) by (intros n I; unfold g0; now destruct (in_dec N.eq_dec n ns)).
  set (search := negb (forallb _ _) || no_stored).
  assert (Se : (search = true /\ exists at_ o, in_movie first_held its ms at_ o /\ goes_on ms o) \/ (search = false /\ exists o, in_movie held its ms offset o)).
  { destruct Hs as [(at_ & o & I & G & Z)|(Ns & o & I)].
    - left. split; [|now exists at_, o]. unfold search. apply orb_true_iff. destruct Z as [Z|(n & Sn & Z)]; [now right|left]. apply negb_true_iff, not_true_is_false. intros X. rewrite forallb_forall in X. apply (proj2 Hn) in Sn. specialize (X (n, g0 n)). cbn [snd] in X. rewrite (proj1 (proj2 (proj2 (G0 n))) Sn), Z in X.
      assert (Y : negb (Z.of_N 0 =? 0)%Z = true) by (apply X; unfold table; apply in_map_iff; now exists n). discriminate Y.
    - right. split; [|now exists o]. unfold search. rewrite Ns, orb_false_r. apply negb_false_iff. apply forallb_forall. intros y Hy. unfold table in Hy. apply in_map_iff in Hy as (n & <- & I'). cbn [snd]. rewrite (proj1 (proj2 (proj2 (G0 n))) I').
      destruct (proj1 I n (proj1 (proj2 Hn n) I')) as (d1 & (pre & cc & d2 & pad & post & _ & _ & _ & Eo & _) & _). replace (Z.of_N (offset n) =? 0)%Z with false by lia. reflexivity. }
  destruct Se as [(-> & at_ & o & (I1 & I2 & I3) & Go)|(-> & o & (I1 & I2 & I3))].
  - assert (F : exists g ns1 : _, avi_find (table g0 ns) main = Ok (table g ns1 : tracks) /\ NoDup ns1 /\ (forall n, ~ In n ns1 -> g n = new_track n) /\ (forall n, In n ns -> In n ns1) /\ (forall n, In n ns1 -> In n ns \/ has_stream n ms) /\
      forall n, t_file (g n) = None /\ t_td (g n) = td0 its big offset ns n /\ (In n ns -> t_offset (g n) = Z.of_N (at_ n)) /\ (~ In n ns -> t_offset (g n) = 0%Z)).
    { destruct Mo as (F & _ & r & Em & Lr). unfold avi_find. rewrite (run_items0 false false fs_done _ find' main ms r); [|exact Em|exact Lr|exact F|discriminate|now apply find_acts].
      destruct (find_run its ms at_ ns (td0 its big offset ns)) with (r := ms) (p := @nil item) (g := g0) (ns := ns) (checks := fun _ : N => [] : bytes) (done := false) as (g & ns1 & c1 & done1 & R & B & C & D & K & G).
      - intros n I. rewrite (td0_in its big offset ns n I). split; [reflexivity|]. split; [reflexivity|]. apply H. now apply Hn.
      - intros n I. now apply td0_out.
      - reflexivity.
      - exact (proj1 Hn).
      - exact New0.
      - auto.
      - intros n. destruct (G0 n) as (G1 & G2 & G3 & G4). split; [exact G1|]. split; [exact G2|]. split; [|exact G4]. intros I. destruct (I1 n (proj1 (proj2 Hn n) I)) as (d1 & (pre & cc & d2 & pad & post & P1 & P2 & P3 & P4 & P5 & P6) & _).
        exists d1, pre, cc, d2, pad, post. split; [now repeat (split; [assumption|])|]. split.
        + unfold is_td. rewrite G2, (td0_in its big offset ns n I). split; reflexivity.
        + left. split; [now exists pre|]. split; [|now left]. unfold g0. destruct (in_dec N.eq_dec n ns); [|contradiction]. cbn [loaded track_of t_match]. assert (data_of n its <> []) by (apply H; now apply Hn). destruct (data_of n its); [contradiction|]. rewrite lenN_cons. lia.
      - discriminate.
      - exists g, ns1. split; [match goal with |- bind ?a ?b = _ => transitivity (bind (Ok (table g ns1 : tracks, c1, done1)) b); [f_equal; exact R|reflexivity] end|]. repeat (split; [assumption|]). exact G. }
    destruct F as (g & ns1 & R & Nd1 & New1 & Sub & Only & G). match goal with |- bind _ ?b = _ => transitivity (bind (Ok (table g ns1 : tracks)) b); [f_equal; exact R|] end. cbn [bind andb].
    rewrite (none_of (fun t => not_located false (snd t))).
    2: { intros n I. cbn [snd]. unfold not_located. cbn [negb]. rewrite andb_true_r, andb_false_r, orb_false_r. destruct (G n) as (_ & G2 & G3 & _). rewrite G2. destruct (in_dec N.eq_dec n ns) as [J|J]; [|rewrite (td0_out its big offset ns n J); reflexivity]. rewrite (G3 J).
         destruct (I1 n (proj1 (proj2 Hn n) J)) as (d1 & (pre & cc & d2 & pad & post & _ & _ & _ & Eo & _) & _). replace (Z.of_N (at_ n) =? 0)%Z with false by lia. apply andb_false_r. }
    apply (extract_all its ms main big offset H Mo ns Hn at_ o g ns1 x ys fd A Cf); try assumption.
    + intros n Hs1. destruct (I1 n Hs1) as (d1 & P & Q). exists d1. split; [now apply first_held_held|exact Q].
    + intros n I J pre post Em Eo. destruct (Only n I) as [X|X]; [contradiction|]. rewrite Em in X. apply has_app in X as [X|X]; [now apply (Go pre post n Em Eo)|exact X].
  - cbn [andb]. apply (extract_all its ms main big offset H Mo ns Hn offset o g0 ns x ys fd A Cf); try assumption; [exact (proj1 Hn)|auto|intros n I J; contradiction].
Qed.
