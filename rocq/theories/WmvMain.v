(** WmvMain: which WMV samples are rebuilt. *)
From Verif Require Import Base BaseFacts Crc CrcFacts SrsRec SrsRecSpec SrsRecFacts Srs SrrFacts StrmFacts Avi Wmv StrmSpec Mp3Spec WmvSpec WmvPacket WmvRead WmvSrs WmvLoad WmvOut WmvFind WmvExtract.
From Verif Require AviSrs AviExtract AviMain.
Import AviSrs(table, table_keys, table_ext, get_table, set_table).
Import AviExtract(fl).
Import AviMain(is_table, get_in, starts_common, none_of).

(** ** Rebuilding from the data of the tracks *)
Theorem wmv_back ap name big offset a srs (ts : tracks) : wmv_ok a -> wmv_srs ap name big offset (file_of a) = Ok srs ->
  NoDup (map fst ts) -> (forall n, has_stream n (pieces_of a) -> exists t d, In (n, t) ts /\ t_file t = Some d /\ starts (data_of n (pieces_of a)) d) ->
  wmv_rebuild ts srs = Ok (file_of a, file_of a).
Proof.
  intros H E Nd Hd. destruct (load_is ap name big offset a srs H E) as (ns & d & x & ys & _ & _ & L & _ & -> & A). destruct H as (psize & Ok_ & _ & _ & Apart).
  rewrite (is_table ts Nd). eapply (rebuild_exact a psize Ok_ Apart (map fst ts)); [|exact A|exact L|].
  - intros n Hn. destruct (Hd n Hn) as (t & e & Hi & _). apply in_map_iff. now exists (n, t).
  - intros n Hn. destruct (Hd n Hn) as (t & e & Hi & Hf & St). exists e. rewrite (get_in n t ts Nd Hi). now split.
Qed.

(** ** The whole *)
Lemma first_held_held n d cs o : first_held n d cs o -> held n d cs o.
Proof. intros (pre & p & d1 & d2 & post & A & B & C & D & _). now exists pre, p, d1, d2, post. Qed.
Lemma held_pos n d m psize o : asf_ok m psize -> held n d (cells m) o -> o <> 0.
Proof.
  intros Ok_ (pre & p & d1 & d2 & post & E & _ & -> & _). assert (Hc : In (p, (n, d1 ++ d2)) (cells m)) by (rewrite E; apply in_elt). apply all_stream in Hc as (_ & L & _). rewrite dh_is in L. rewrite lenN_app, (dh_len m psize Ok_) in L. cbn [fst] in L. lia.
Qed.
Section Exact.
Variables (a m : asf) (main : bytes) (big : bool) (offset : N -> N).
Hypothesis H : wmv_ok a.
Hypothesis Mo : movie_ok main m.
Variables (ns0 : list N).
Hypothesis Hn : lists (declared (a_before a)) (pieces_of a) ns0.
Definition td0 (n : N) : track_data := if in_dec N.eq_dec n ns0 then stored big offset a n else t_td (new_track n).
Lemma td0_in n : In n ns0 -> td0 n = stored big offset a n. Proof. unfold td0. now destruct (in_dec N.eq_dec n ns0). Qed.
Lemma td0_out n : ~ In n ns0 -> td0 n = t_td (new_track n). Proof. unfold td0. now destruct (in_dec N.eq_dec n ns0). Qed.
Lemma has_in n : has_stream n (pieces_of a) -> In n ns0. Proof. intros X. apply Hn. now right. Qed.
Lemma not_has n : ~ has_stream n (pieces_of a) -> data_of n (pieces_of a) = []. Proof. apply no_data. Qed.
Lemma has_dec n : has_stream n (pieces_of a) \/ ~ has_stream n (pieces_of a).
Proof.
  destruct (existsb (fun p => p_stream p =? n) (pieces_of a)) eqn:E.
  - left. apply existsb_exists in E as (p & Hp & E). exists p. split; [exact Hp|now apply N.eqb_eq].
  - right. intros (p & Hp & Ep). apply not_true_iff_false in E. apply E. apply existsb_exists. exists p. split; [exact Hp|now apply N.eqb_eq].
Qed.
(** no data is looked for in a track without data *)
Lemma td0_not n : ~ has_stream n (pieces_of a) -> td_signature (td0 n) = [].
Proof. intros X. unfold td0. destruct (in_dec N.eq_dec n ns0); [|reflexivity]. cbn [stored with_stored td_signature AviSrs.td_of]. rewrite (not_has n X). reflexivity. Qed.
(** extracting and rebuilding *)
Lemma extract_all at_ g ns x ys fd tr : Forall is_plain (added x ys (pads (a_packets a))) -> fd_crc32 fd = crc32 (file_of a) -> wmv_load (srs_file a (kids_bytes (added x ys (pads (a_packets a))))) = Ok (mkL (Some fd) (padding_of a) tr) ->
  in_movie held a m at_ -> NoDup ns -> (forall n, ~ In n ns -> g n = new_track n) -> (forall n, In n ns0 -> In n ns) ->
  (forall n, t_file (g n) = None /\ t_td (g n) = td0 n /\ (has_stream n (pieces_of a) -> t_offset (g n) = Z.of_N (at_ n))) ->
  (do ts <- wmv_extract (table g ns) main; if existsb (fun t => not_extracted (snd t)) ts then Ok (Abort 4)
   else do r <- wmv_rebuild ts (srs_file a (kids_bytes (added x ys (pads (a_packets a))))); Ok (if crc32 (snd r) =? fd_crc32 fd then Rebuilt (fst r) else Mismatch (fst r)))
  = Ok (Rebuilt (file_of a)).
Proof.
  intros A Cf L Hh Nd New Hin G. destruct Mo as ((psize & Okm) & _ & r & Em & Lr).
  destruct (extract_is m psize main r Okm Em Lr g ns Nd New (fun n => proj1 (G n))) as (pre & cs & g' & ns' & Ec & Before & E & Nd' & Sub & _ & K & Fin).
  match goal with |- bind _ ?b = _ => transitivity (bind (Ok (table g' ns' : tracks)) b); [f_equal; exact E|] end. cbn [bind].
  assert (Data : forall n, has_stream n (pieces_of a) -> exists e, t_file (g' n) = Some e /\ starts (data_of n (pieces_of a)) e).
  { intros n Hs. destruct (Hh n Hs) as (Nd0 & Hd). destruct (G n) as (_ & G2 & G3). specialize (G3 Hs). pose proof (has_in n Hs) as I.
    assert (P0 : at_ n <> 0) by (exact (held_pos n _ m psize _ Okm Hd)).
    destruct (held_from n (data_of n (pieces_of a)) (cells m) (at_ n) pre cs (all_rising _ _) Hd Ec) as (St & Tc).
    { intros c Hc. specialize (Before c Hc). pose proof (min_le g ns n (Hin n I)) as Le. rewrite G3 in Le. rewrite N2Z.id in Le. specialize (Le ltac:(lia)). unfold cell, bytes in *. lia. }
    destruct (K n) as (_ & Kn). rewrite G3 in *. assert (Len : td_length (t_td (g n)) = lenN (data_of n (pieces_of a))) by (rewrite G2, (td0_in n I); reflexivity).
    destruct Fin as [Fin|Fin].
    - specialize (Fin n (Sub n (Hin n I))). unfold complete in Fin. destruct (t_file (g' n)) as [e|] eqn:Ef; [|discriminate Fin]. exists e. split; [reflexivity|]. cbn [fl] in Kn. destruct (K n) as ((Ktd & _) & _). rewrite Ktd, Len in Fin. apply (starts_common _ _ _ St Kn). lia.
    - destruct (Fin n) as (F1 & F2). rewrite G3, Len in *. specialize (F2 Tc). destruct (t_file (g' n)) as [e|]; [|contradiction]. exists e. split; [reflexivity|]. cbn [fl] in *. destruct F1 as [F1|F1]; [apply (starts_common _ _ _ St Kn); lia|rewrite F1; exact St]. }
  rewrite (none_of (fun t => not_extracted (snd t))).
  2: { intros n I. cbn [snd]. unfold not_extracted. destruct (K n) as ((T & _) & _). rewrite T. destruct (G n) as (_ & G2 & _). rewrite G2. destruct (has_dec n) as [J|J]; [|rewrite (td0_not n J); reflexivity]. destruct (Data n J) as (e & -> & q & Q). rewrite (td0_in n (has_in n J)).
       change (td_length (stored big offset a n)) with (lenN (data_of n (pieces_of a))). replace (lenN e <? lenN (data_of n (pieces_of a))) with false by (rewrite Q, lenN_app; lia). apply andb_false_r. }
  destruct H as (ps & Ok_ & _ & _ & Apart). rewrite (rebuild_exact a ps Ok_ Apart ns' (fun n Hs => Sub n (Hin n (has_in n Hs))) x ys g' (Some fd) tr A L Data). cbn [bind fst snd]. rewrite Cf, N.eqb_refl. reflexivity.
Qed.
End Exact.
Theorem wmv_exact ap name big offset no_stored a srs main m :
  wmv_ok a -> wmv_srs ap name big offset (file_of a) = Ok srs -> movie_ok main m ->
  (exists at_, in_movie first_held a m at_ /\ (forall n, has_stream n (pieces_of m) -> data_of n (pieces_of a) <> []) /\ (no_stored = true \/ exists n, is_track n a /\ offset n = 0)) \/
  (no_stored = false /\ (forall n, is_track n a -> offset n <> 0) /\ in_movie held a m offset) ->
  wmv_restore no_stored srs main = Ok (Rebuilt (file_of a)).
Proof.
  intros H E Mo Hs. destruct (load_is ap name big offset a srs H E) as (ns & fd & x & ys & Hn & Ne & L & Cf & -> & A). unfold wmv_restore, srs_rebuild, wmv_load_srs. rewrite L. cbn [bind orb l_file l_tracks].
  set (g0 := fun n => if in_dec N.eq_dec n ns then loaded big offset a n else new_track n).
  assert (Tg : table (loaded big offset a) ns = table g0 ns) by (apply table_ext; intros n I; unfold g0; now destruct (in_dec N.eq_dec n ns)). rewrite Tg in L |- *. clear Tg.
  assert (G0 : forall n, t_file (g0 n) = None /\ t_td (g0 n) = td0 a big offset ns n /\ (In n ns -> t_offset (g0 n) = Z.of_N (offset n))).
  { intros n. unfold g0, td0. destruct (in_dec N.eq_dec n ns); (split; [reflexivity|]); (split; [reflexivity|]); intros X; [reflexivity|contradiction]. }
  assert (New0 : forall n, ~ In n ns -> g0 n = new_track n) by (intros n I; unfold g0; now destruct (in_dec N.eq_dec n ns)).
  assert (Ht : forall n, is_track n a <-> In n ns) by (intros n; symmetry; apply Hn).
  set (search := negb (forallb _ _) || no_stored).
  assert (Se : (search = true /\ exists at_, in_movie first_held a m at_ /\ forall n, has_stream n (pieces_of m) -> data_of n (pieces_of a) <> []) \/ (search = false /\ in_movie held a m offset)).
  { destruct Hs as [(at_ & I & G & Z)|(Ns & Z & I)].
    - left. split; [|now exists at_]. unfold search. apply orb_true_iff. destruct Z as [Z|(n & Sn & Z)]; [now right|left]. apply negb_true_iff, not_true_is_false. intros X. rewrite forallb_forall in X. apply Ht in Sn. specialize (X (n, g0 n)). cbn [snd] in X. rewrite (proj2 (proj2 (G0 n)) Sn), Z in X.
      assert (Y : negb (Z.of_N 0 =? 0)%Z = true) by (apply X; unfold table; apply in_map_iff; now exists n). discriminate Y.
    - right. split; [|exact I]. unfold search. rewrite Ns, orb_false_r. apply negb_false_iff. apply forallb_forall. intros y Hy. unfold table in Hy. apply in_map_iff in Hy as (n & <- & I'). cbn [snd]. rewrite (proj2 (proj2 (G0 n)) I'). specialize (Z n (proj2 (Ht n) I')). replace (Z.of_N (offset n) =? 0)%Z with false by lia. reflexivity. }
  destruct Se as [(-> & at_ & I1 & I2)|(-> & I1)].
  - assert (F : exists g, wmv_find (table g0 ns) main = Ok (table g ns : tracks) /\ (forall n, ~ In n ns -> g n = new_track n) /\
      forall n, t_file (g n) = None /\ t_td (g n) = td0 a big offset ns n /\ (has_stream n (pieces_of a) -> t_offset (g n) = Z.of_N (at_ n))).
    { destruct Mo as ((psize & Okm) & _ & r & Em & Lr).
      assert (Full : forall n, full (pieces_of a) n -> In n ns /\ td_signature (td0 a big offset ns n) = takeN 256 (data_of n (pieces_of a)) /\ td_length (td0 a big offset ns n) = lenN (data_of n (pieces_of a))).
      { intros n Fu. assert (I : In n ns). { apply (has_in a ns Hn). destruct (has_dec a n) as [X|X]; [exact X|]. destruct Fu. now apply no_data. } split; [exact I|]. rewrite (td0_in a big offset ns n I). now split. }
      assert (Pos : forall c, In c (cells m) -> fst c <> 0 /\ full (pieces_of a) (fst (snd c))).
      { intros c Hc. apply all_stream in Hc as (X & Y & _). split; [rewrite dh_is, lenN_app, (dh_len m psize Okm) in Y; lia|]. now apply I2. }
      assert (Gs : gs (pieces_of a) (cells m) at_ (td0 a big offset ns) false [] g0 (fun _ => [])).
      { intros n. destruct (G0 n) as (G1 & G2 & _). split; [exact G1|]. split; [exact G2|]. intros Fu. destruct (Full n Fu) as (I & _). assert (X : has_stream n (pieces_of a)) by (destruct (has_dec a n) as [X|X]; [exact X|destruct Fu; now apply no_data]).
        destruct (I1 n X) as (_ & pre & p & d1 & d2 & post & P1 & P2 & P3 & P4 & P5). exists p, d1, d2, pre, post. split; [now repeat (split; [assumption|])|]. left. split; [reflexivity|]. split; [now exists pre|]. split; [|now left].
        unfold g0. destruct (in_dec N.eq_dec n ns); [|contradiction]. cbn [loaded track_of t_match]. unfold full in Fu. destruct (data_of n (pieces_of a)); [contradiction|]. rewrite lenN_cons. lia. }
      set (i0 := ((table g0 ns : tracks, (fun _ => []) : N -> bytes, false)) : fstate).
      assert (FC : forall pre post, cells m = pre ++ post -> exists g' c' done', crun fcell pre i0 = Ok ((table g' ns : tracks, c', done') : fstate) /\ gs (pieces_of a) (cells m) at_ (td0 a big offset ns) done' pre g' c' /\ forall n, ~ full (pieces_of a) n -> g' n = g0 n).
      { intros pre post Ec. exact (find_cells (pieces_of a) (cells m) at_ ns (td0 a big offset ns) (proj1 Hn) Full Pos (cells m) [] g0 (fun _ => []) false eq_refl Gs pre post Ec). }
      set (s := fun pre => match crun fcell pre i0 with Ok s => s | Err _ => i0 end).
      destruct (find_is m psize main r Okm Em Lr (table g0 ns) s) as (pre & post & Ec & Dn & R).
      { intros pre post Ec. destruct (FC pre post Ec) as (g' & c' & done' & R & _). unfold s. change (crun fcell pre i0 = Ok (match crun fcell pre i0 with Ok s0 => s0 | Err _ => i0 end)). now rewrite R. }
      destruct (FC pre post Ec) as (g' & c' & done' & R' & G' & K). exists g'. split; [rewrite R; unfold s; now rewrite R'|].
      split; [intros n I; rewrite K; [now apply New0|]; intros Fu; now apply I, Full|].
      intros n. destruct (G' n) as (G1 & G2 & G3). split; [exact G1|]. split; [exact G2|]. intros X. destruct (I1 n X) as (Fu & _). destruct (G3 Fu) as (p0 & d1 & d2 & pr & po & Hh & [(W1 & W)|W]); [|exact (proj1 W)]. exfalso. unfold s in Dn. rewrite R' in Dn. unfold fs_done in Dn. cbn [snd] in Dn. destruct Dn as [->|Dn]; [|congruence].
      rewrite app_nil_r in Ec. rewrite <- Ec in W. destruct Hh as (A1 & _). exact (not_waiting n _ (cells m) p0 d1 d2 pr po A1 _ _ W). }
    destruct F as (g & R & New1 & G). match goal with |- bind _ ?b = _ => transitivity (bind (Ok (table g ns : tracks)) b); [f_equal; exact R|] end. cbn [bind andb].
    assert (Ih : in_movie held a m at_) by (intros n X; destruct (I1 n X) as (X1 & X2); split; [exact X1|now apply first_held_held]).
    rewrite (none_of (fun t => not_located false (snd t))).
    2: { intros n I. cbn [snd]. unfold not_located. cbn [negb]. rewrite andb_true_r, andb_false_r, orb_false_r. destruct (G n) as (_ & G2 & G3). rewrite G2. destruct (has_dec a n) as [J|J]; [|rewrite (td0_not a big offset ns n J); reflexivity]. rewrite (G3 J).
         destruct Mo as ((psize & Okm) & _). destruct (Ih n J) as (_ & Hd). pose proof (held_pos n _ m psize _ Okm Hd). replace (Z.of_N (at_ n) =? 0)%Z with false by lia. apply andb_false_r. }
    apply (extract_all a m main big offset H Mo ns Hn at_ g ns x ys fd (table g0 ns) A Cf L Ih (proj1 Hn) New1 (fun n I => I) G).
  - cbn [andb]. apply (extract_all a m main big offset H Mo ns Hn offset g0 ns x ys fd (table g0 ns) A Cf L I1 (proj1 Hn) New0 (fun n I => I)). intros n. destruct (G0 n) as (G1 & G2 & G3). split; [exact G1|]. split; [exact G2|]. intros X. apply G3. now apply (has_in a ns Hn).
Qed.
