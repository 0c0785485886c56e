(** Mp4ProgFacts: the code of Mp4Prog.v on a file gives what Mp4.v says; so it does on a file that is the first one inside
    RAR volumes. *)
From Verif Require Import Base BaseFacts Crc SrsRec Srs SrrFacts Mp4 Mp4Prog StreamSpec Prog ProgSpec ProgFacts AviProgFacts.
From Verif Require StrmProgFacts Srr SetSpec VolSpec.

(** ** Atoms *)
Lemma next_ok check c pos :
  exists q, run (flat_op c) pos (p_next check (lenN c)) = do a <- mov_next check c pos; Ok (a, match a with Some a => a_start a | None => q end).
Proof.
  unfold p_next, mov_next. exists pos. rewrite run_bind, run_tell. cbn [bind fst snd]. destruct (lenN c <? pos + 8); [reflexivity|].
  rewrite run_bind, run_read. cbn [bind fst snd]. change 8%Z with (Z.of_N 8). rewrite read_at_pos. set (h := sub pos 8 c). cbv zeta.
  rewrite run_bind, run_lift. destruct (unpack_be 4 h 0) as [n|x]; [|reflexivity]. cbn [bind fst snd].
  rewrite run_bind. match goal with |- context [run (flat_op c) (pos + lenN h) ?p] => set (P := p) end. match goal with |- _ = (do a <- (do r <- ?x; _); _) => set (X := x) end.
  assert (R : exists q, run (flat_op c) (pos + lenN h) P = do r <- X; Ok (r, q)).
  { subst P X. destruct (n =? 1); [|destruct (n =? 0); eexists; reflexivity]. rewrite run_bind, run_read, read_at_pos. cbn [bind fst snd]. cbv zeta.
    assert (Q : sub (pos + lenN h) 8 c = sub (pos + 8) 8 c).
    { assert (L : lenN h = N.min 8 (lenN c - pos)) by apply lenN_sub. destruct (N.le_gt_cases 8 (lenN c - pos)); [do 2 f_equal; lia|].
      assert (Z1 : forall k, lenN c <= k -> sub k 8 c = []) by (intros k K; apply lenN_0; rewrite lenN_sub; lia). rewrite !Z1 by lia. reflexivity. }
    rewrite Q. rewrite run_bind, run_lift. destruct (if lenN _ =? 8 then _ else _) as [m|x]; [eexists|exists 0]; reflexivity. }
  destruct R as (q & R). rewrite R. destruct X as [r|x]; [|reflexivity]. cbn [bind fst snd].
  destruct (_ && _); [reflexivity|]. rewrite run_bind, run_start. reflexivity.
Qed.
Lemma next_at check c pos a : mov_next check c pos = Ok (Some a) -> a_start a = pos.
Proof.
  unfold mov_next. destruct (_ <? _); [discriminate|]. intros H. bindinv H. match type of H with (bind ?x _) = _ => destruct x as [r|x0]; [|discriminate] end. cbn [bind] in H. destruct (_ && _); [discriminate|]. apply ok_inj in H. apply some_inj in H. now subst a.
Qed.
Lemma here c pos n : run (flat_op c) pos (p_seek (Z.of_N n) FromHere) = Ok (tt, pos + n).
Proof. rewrite run_seek. cbv zeta. replace (Z.of_N pos + Z.of_N n <? 0)%Z with false by lia. do 2 f_equal. lia. Qed.
Lemma contents_ok c a : run (flat_op c) (a_start a) (p_contents a) = Ok (a_contents c a, a_data a + lenN (a_contents c a)).
Proof. unfold p_contents. rewrite run_bind, here. cbn [bind fst snd]. apply run_read. Qed.
(** where an action leaves the file *)
Definition left_at (c : bytes) (a : atom) (m : move) : N :=
  match m with Child => a_data a | Skip => a_start a + a_size a | ReadOn => a_data a + lenN (a_contents c a) end.
Lemma loop_ok {S} check c (act : S -> atom -> result (S * move)) pact :
  (forall s a, run (flat_op c) (a_start a) (pact s a) = do r <- act s a; Ok (fst r, left_at c a (snd r))) -> forall fuel pos s,
  (do r <- run (flat_op c) pos (p_loop fuel check (lenN c) pact s); Ok (fst r)) = mov_loop fuel check act c pos s.
Proof.
  intros A. induction fuel as [|fuel IH]; intros pos s; [reflexivity|]. cbn [p_loop mov_loop]. rewrite run_bind. destruct (next_ok check c pos) as (q & ->).
  destruct (mov_next check c pos) as [[a|]|x]; cbn [bind fst snd]; [|reflexivity|reflexivity]. rewrite run_bind, A.
  destruct (act s a) as [[s' m]|x]; [|reflexivity]. cbn [bind fst snd]. rewrite IH. destruct m; reflexivity.
Qed.

(** ** The tracks of the movie *)
(** as [profile_step false], with another file for the signatures *)
Definition profile2 (raw c : bytes) (p : pstate) (a : atom) : result (pstate * move) :=
  let p := mkP (p_tracks p) (p_cur p) (p_done p) (p_meta p + lenN (a_header a)) (p_mdat p) (zcrc32 (a_header a) (p_crc p)) in
  do r <- (if is_container a then Ok (p, Child)
           else if is_atom (bstr "mdat") a then Ok (mkP (p_tracks p) (p_cur p) (p_done p) (p_meta p) (p_mdat p + a_size a) (p_crc p), Skip)
           else
             let data := a_contents c a in
             do p <- track_atom (mkP (p_tracks p) (p_cur p) (p_done p) (p_meta p + lenN data) (p_mdat p) (zcrc32 data (p_crc p))) a data;
             Ok (p, ReadOn));
  do p <- process raw (fst r);
  Ok (p, snd r).
Lemma profile2_same c p a : profile2 c c p a = profile_step false c p a.
Proof. reflexivity. Qed.
Lemma step_ok raw c s a : run (flat_op c) (a_start a) (p_profile_step raw s a) = do r <- profile2 raw c s a; Ok (fst r, left_at c a (snd r)).
Proof.
  unfold p_profile_step, profile2. cbv zeta. rewrite run_bind. set (p := mkP _ _ _ _ _ _). destruct (is_container a).
  - unfold p_child. rewrite run_bind, here. cbn [bind fst snd]. rewrite run_ret. cbn [bind fst snd]. rewrite run_lift. destruct (process raw p) as [p'|x]; reflexivity.
  - destruct (is_atom (bstr "mdat") a).
    + unfold p_skip. rewrite run_bind, run_start. cbn [bind fst snd]. rewrite run_ret. cbn [bind fst snd]. rewrite run_lift. destruct (process raw _) as [p'|x]; reflexivity.
    + rewrite run_bind, contents_ok. cbn [bind fst snd]. rewrite run_lift. match goal with |- context [track_atom ?a ?b ?d] => destruct (track_atom a b d) as [p'|x]; [|reflexivity] end. cbn [bind fst snd]. rewrite run_lift. destruct (process raw p') as [p2|x]; reflexivity.
Qed.
Lemma profile_ok raw c : (do r <- run (flat_op c) 0 (p_profile raw); Ok (fst r)) = mov_read true (profile2 raw c) c (mkP [] None false 0 0 0).
Proof.
  unfold mov_read. rewrite <- (loop_ok true c _ _ (step_ok raw c)). unfold p_profile. rewrite run_bind, run_size. cbn [bind fst snd]. rewrite run_bind. change 0%Z with (Z.of_N 0). rewrite run_start. cbn [bind fst snd].
  replace (1 + length c)%nat with (1 + N.to_nat (lenN c))%nat by (rewrite lenN_length; now rewrite Nat2N.id). reflexivity.
Qed.

(** ** Signatures do not matter *)
Definition bare (t : mtrack) : mtrack := mkM (m_offsets t) (m_lengths t) (m_sizes t) [] (m_length t).
Definition bare2 (x : N * mtrack) : N * mtrack := (fst x, bare (snd x)).
Definition strip (p : pstate) : pstate := mkP (map bare2 (p_tracks p)) (p_cur p) (p_done p) (p_meta p) (p_mdat p) (p_crc p).
Lemma get_bare k d : get_m k (map bare2 d) = match get_m k d with Some t => Some (bare t) | None => None end.
Proof. induction d as [|[q w] d IH]; [reflexivity|]. cbn [map get_m bare2 fst snd]. destruct (q =? k); [reflexivity|exact IH]. Qed.
Lemma set_bare k t d : map bare2 (set_m k t d) = set_m k (bare t) (map bare2 d).
Proof. induction d as [|[q w] d IH]; [reflexivity|]. cbn [map set_m bare2 fst snd]. destruct (q =? k); cbn [map bare2 fst snd]; [reflexivity|now rewrite IH]. Qed.
(** the first entry has no number of samples, or all entries have one *)
Definition full (l : list (N * option N)) : Prop := Forall (fun x => snd x <> None) l.
Definition good (l : list (N * option N)) : Prop := match l with [] => True | x :: _ => snd x = None \/ full l end.
Lemma fill_full n : forall i s, full (stsc_fill n i (Some s)).
Proof. induction n as [|n IH]; intros i s; constructor; [discriminate|apply IH]. Qed.
Lemma loop_full : forall old i s, full old -> full (stsc_loop old i (Some s)).
Proof.
  induction old as [|[first samples] old IH]; intros i s F; [constructor|]. cbn [stsc_loop]. inversion F as [|? ? F1 F2]. cbn [snd] in F1. apply Forall_app. split; [destruct (i <? first); [apply fill_full|constructor]|].
  constructor; [exact F1|]. destruct samples as [sm|]; [|congruence]. now apply IH.
Qed.
Lemma stsc_good l : good l -> good (stsc l).
Proof.
  destruct l as [|[first samples] l]; [now intros|]. intros G. unfold stsc. cbn [stsc_loop]. destruct (N.ltb_spec 1 first) as [L|L].
  - destruct (N.to_nat (first - 1)) as [|n] eqn:E; [lia|]. cbn [stsc_fill app good]. now left.
  - cbn [app good]. destruct G as [G|G]; [now left|right]. inversion G as [|? ? G1 G2]. cbn [snd] in G1. constructor; [exact G1|]. destruct samples as [sm|]; [|congruence]. now apply loop_full.
Qed.
Lemma good_app l m : good l -> full m -> good (l ++ m).
Proof.
  intros G F. destruct l as [|x l]; [destruct m as [|y m]; [exact I|now right]|]. cbn [app good]. destruct G as [G|G]; [now left|right]. change (x :: l ++ m) with ((x :: l) ++ m). apply Forall_app. now split.
Qed.
Lemma full_samples l n : full l -> l <> [] -> exists k, samples_in l n = Ok k.
Proof.
  intros F Ne. unfold samples_in. destruct (nth_error l n) as [x|] eqn:E.
  - apply nth_error_In in E. unfold full in F. rewrite Forall_forall in F. specialize (F x E). cbn [bind]. destruct (snd x) as [k|]; [now exists k|congruence].
  - unfold last_length. destruct (rev l) as [|x r] eqn:R; [apply (f_equal (@rev _)) in R; rewrite rev_involutive in R; now destruct Ne|].
    assert (Hx : In x l) by (apply in_rev; rewrite R; now left). unfold full in F. rewrite Forall_forall in F. specialize (F x Hx). cbn [bind]. destruct (snd x) as [k|]; [now exists k|congruence].
Qed.
Lemma sig_full c t : full (m_lengths t) -> m_lengths t <> [] -> forall offsets chnb prev sig, exists s, sig_loop c t offsets chnb prev sig = Ok s.
Proof.
  intros F Ne. induction offsets as [|o offsets IH]; intros chnb prev sig; [now exists sig|]. cbn [sig_loop]. destruct (full_samples (m_lengths t) chnb F Ne) as (k & ->). cbn [bind]. cbv zeta. destruct (_ =? _); [eexists; reflexivity|apply IH].
Qed.
(** what [process] does to the bare state *)
Definition process0 (p : pstate) : result pstate :=
  match p_cur p with
  | None => Ok p
  | Some k =>
    match get_m k (p_tracks p) with
    | None => Ok p
    | Some t =>
      if negb (p_done p) && nonempty (m_offsets t) && nonempty (m_lengths t) && nonempty (m_sizes t) then
        do _ <- samples_in (m_lengths t) 0;
        Ok (mkP (set_m k (mkM (m_offsets t) (m_lengths t) (m_sizes t) [] (sumN (m_sizes t))) (p_tracks p)) (Some k) true (p_meta p) (p_mdat p) (p_crc p))
      else Ok p
    end
  end.
Definition all_good (p : pstate) : Prop := Forall (fun x => good (m_lengths (snd x))) (p_tracks p).
Lemma get_good p k t : all_good p -> get_m k (p_tracks p) = Some t -> good (m_lengths t).
Proof.
  unfold all_good. generalize (p_tracks p) as d. induction d as [|[q w] d IH]; [discriminate|]. intros F. inversion F as [|? ? F1 F2]. cbn [get_m]. destruct (q =? k); [intros Q; apply some_inj in Q; now subst w|now apply IH].
Qed.
Lemma set_good k t d : good (m_lengths t) -> Forall (fun x : N * mtrack => good (m_lengths (snd x))) d -> Forall (fun x : N * mtrack => good (m_lengths (snd x))) (set_m k t d).
Proof.
  intros G. induction d as [|[q w] d IH]; intros F; [now constructor|]. inversion F as [|? ? F1 F2]. cbn [set_m]. destruct (q =? k); constructor; auto.
Qed.
Lemma process_strip raw p : all_good p -> (do r <- process raw p; Ok (strip r)) = process0 (strip p).
Proof.
  intros G. unfold process, process0. cbn [strip p_cur]. destruct (p_cur p) as [k|] eqn:K; [|cbn [bind]; unfold strip; now rewrite K]. cbn [strip p_tracks p_done p_meta p_mdat p_crc]. rewrite get_bare. destruct (get_m k (p_tracks p)) as [t|] eqn:E; [|cbn [bind]; unfold strip; now rewrite K].
  cbn [bare m_offsets m_lengths m_sizes]. destruct (negb (p_done p)); [|cbn [andb bind]; unfold strip; now rewrite K]. cbn [andb].
  destruct (nonempty (m_offsets t)) eqn:N1; [|cbn [andb bind]; unfold strip; now rewrite K]. destruct (nonempty (m_lengths t)) eqn:N2; [|cbn [andb bind]; unfold strip; now rewrite K]. cbn [andb].
  destruct (nonempty (m_sizes t)); [|cbn [bind]; unfold strip; now rewrite K].
  assert (S : (exists k s, samples_in (m_lengths t) 0 = Ok k /\ mp4_signature raw t = Ok s) \/ (exists x, samples_in (m_lengths t) 0 = Err x /\ mp4_signature raw t = Err x)).
  { apply get_good in E; [|exact G]. destruct (m_lengths t) as [|x l] eqn:L; [discriminate N2|]. unfold mp4_signature. destruct E as [E|E].
    - right. exists TypeError. assert (X : samples_in (x :: l) 0 = Err TypeError) by (unfold samples_in; cbn [nth_error bind]; now rewrite E). split; [exact X|]. destruct (m_offsets t) as [|o os]; [discriminate N1|]. cbn [sig_loop]. rewrite L, X. reflexivity.
    - left. destruct (full_samples (x :: l) 0 E) as (n & ->); [discriminate|]. destruct (sig_full raw t) with (offsets := m_offsets t) (chnb := O) (prev := 0) (sig := @nil byte) as (s & ->); [now rewrite L|rewrite L; discriminate|]. now exists n, s. }
  destruct S as [(n & s & -> & ->)|(x & -> & ->)]; [|reflexivity]. cbn [bind]. unfold strip. cbn [p_tracks p_cur p_done p_meta p_mdat p_crc]. rewrite set_bare. reflexivity.
Qed.
Lemma process_good raw p r : all_good p -> process raw p = Ok r -> all_good r.
Proof.
  intros G. unfold process. destruct (p_cur p) as [k|]; [|intros H; apply ok_inj in H; now subst r]. destruct (get_m k (p_tracks p)) as [t|] eqn:E; [|intros H; apply ok_inj in H; now subst r].
  destruct (_ && _); [|intros H; apply ok_inj in H; now subst r]. intros H. bindinv H. apply ok_inj in H. subst r. unfold all_good. cbn [p_tracks]. apply set_good; [|exact G]. cbn [m_lengths]. now apply (get_good p k t).
Qed.
Lemma add_bare t a data : add_table (bare t) a data = match add_table t a data with None => None | Some r => Some (do t <- r; Ok (bare t)) end.
Proof.
  unfold add_table. cbn [bare m_offsets m_lengths m_sizes m_sig m_length].
  destruct (is_atom (bstr "stco") a); [destruct (unpack_be 4 data 4); [|reflexivity]; cbn [bind]; destruct (table _ _ _ _ _); reflexivity|].
  destruct (is_atom (bstr "co64") a); [destruct (unpack_be 4 data 4); [|reflexivity]; cbn [bind]; destruct (table _ _ _ _ _); reflexivity|].
  destruct (is_atom (bstr "stsc") a); [destruct (unpack_be 4 data 4); [|reflexivity]; cbn [bind]; destruct (table _ _ _ _ _); reflexivity|].
  destruct (_ || _); [|reflexivity]. destruct (unpack_be 4 data 4) as [size|x]; [|reflexivity]. cbn [bind]. destruct (unpack_be 4 data 8); [|reflexivity]. cbn [bind]. destruct (if size =? 0 then _ else _); reflexivity.
Qed.
Lemma add_good t a data r t2 : good (m_lengths t) -> add_table t a data = Some r -> r = Ok t2 -> good (m_lengths t2).
Proof.
  intros G. unfold add_table. destruct (is_atom (bstr "stco") a); [intros H; apply some_inj in H; subst r; intros H; bindinv H; bindinv H; apply ok_inj in H; now subst t2|].
  destruct (is_atom (bstr "co64") a); [intros H; apply some_inj in H; subst r; intros H; bindinv H; bindinv H; apply ok_inj in H; now subst t2|].
  destruct (is_atom (bstr "stsc") a).
  - intros H; apply some_inj in H; subst r; intros H; bindinv H; bindinv H; apply ok_inj in H. subst t2. cbn [m_lengths]. apply stsc_good, good_app; [exact G|]. apply Forall_forall. intros x Hx. apply in_map_iff in Hx as (y & <- & _). discriminate.
  - destruct (_ || _); [|discriminate]. intros H; apply some_inj in H; subst r; intros H; bindinv H; bindinv H; bindinv H; apply ok_inj in H; now subst t2.
Qed.
Lemma track_strip p a data : (do r <- track_atom p a data; Ok (strip r)) = track_atom (strip p) a data.
Proof.
  unfold track_atom. cbn [strip p_tracks p_cur p_done p_meta p_mdat p_crc]. destruct (is_atom (bstr "tkhd") a).
  - destruct (unpack_be 4 data 12) as [k|x]; [|reflexivity]. cbn [bind]. rewrite get_bare. destruct (get_m k (p_tracks p)); [reflexivity|]. cbn [bind]. unfold strip. cbn [p_tracks p_cur p_done p_meta p_mdat p_crc]. now rewrite set_bare.
  - destruct (p_cur p) as [k|] eqn:K.
    + rewrite get_bare. destruct (get_m k (p_tracks p)) as [t|]; [|cbn [bind]; unfold strip; now rewrite K]. rewrite add_bare. destruct (add_table t a data) as [[t2|x]|]; cbn [bind]; [|reflexivity|unfold strip; now rewrite K]. unfold strip. cbn [p_tracks p_cur p_done p_meta p_mdat p_crc]. now rewrite set_bare.
    + destruct (add_table _ a data); cbn [bind]; [reflexivity|]. unfold strip. now rewrite K.
Qed.
Lemma track_good p a data r : all_good p -> track_atom p a data = Ok r -> all_good r.
Proof.
  intros G. unfold track_atom. destruct (is_atom (bstr "tkhd") a).
  - intros H. bindinv H. destruct (get_m v (p_tracks p)); [discriminate|]. apply ok_inj in H. subst r. unfold all_good. cbn [p_tracks]. now apply set_good.
  - destruct (p_cur p) as [k|].
    + destruct (get_m k (p_tracks p)) as [t|] eqn:E; [|intros H; apply ok_inj in H; now subst r]. destruct (add_table t a data) as [r0|] eqn:A; [|intros H; apply ok_inj in H; now subst r]. intros H. bindinv H. apply ok_inj in H. subst r. unfold all_good. cbn [p_tracks].
      apply set_good; [|exact G]. apply (add_good t a data r0 v); [now apply (get_good p k t)|exact A|assumption].
    + destruct (add_table _ a data); [discriminate|]. intros H; apply ok_inj in H; now subst r.
Qed.
Definition profile0 (c : bytes) (p : pstate) (a : atom) : result (pstate * move) :=
  let p := mkP (p_tracks p) (p_cur p) (p_done p) (p_meta p + lenN (a_header a)) (p_mdat p) (zcrc32 (a_header a) (p_crc p)) in
  do r <- (if is_container a then Ok (p, Child)
           else if is_atom (bstr "mdat") a then Ok (mkP (p_tracks p) (p_cur p) (p_done p) (p_meta p) (p_mdat p + a_size a) (p_crc p), Skip)
           else
             let data := a_contents c a in
             do p <- track_atom (mkP (p_tracks p) (p_cur p) (p_done p) (p_meta p + lenN data) (p_mdat p) (zcrc32 data (p_crc p))) a data;
             Ok (p, ReadOn));
  do p <- process0 (fst r);
  Ok (p, snd r).
Lemma profile_strip raw c p a : all_good p ->
  (do r <- profile2 raw c p a; Ok (strip (fst r), snd r)) = profile0 c (strip p) a /\ (forall r, profile2 raw c p a = Ok r -> all_good (fst r)).
Proof.
  intros G. unfold profile2, profile0. cbv zeta. cbn [strip p_tracks p_cur p_done p_meta p_mdat p_crc].
  assert (T : forall q (m : move), all_good q -> (do r <- (do p <- process raw q; Ok (p, m)); Ok (strip (fst r), snd r)) = (do p <- process0 (strip q); Ok (p, m)) /\ (forall r, (do p <- process raw q; Ok (p, m)) = Ok r -> all_good (fst r))).
  { intros q m Q. split.
    - rewrite <- (process_strip raw q Q). destruct (process raw q) as [x|x]; reflexivity.
    - intros r H. bindinv H. apply ok_inj in H. subst r. cbn [fst]. now apply (process_good raw q). }
  destruct (is_container a); [apply (T (mkP _ _ _ _ _ _)); exact G|]. destruct (is_atom (bstr "mdat") a); [apply (T (mkP _ _ _ _ _ _)); exact G|].
  set (q := mkP (p_tracks p) _ _ _ _ _). change (mkP (map bare2 (p_tracks p)) (p_cur p) (p_done p) (p_meta p + lenN (a_header a) + lenN (a_contents c a)) (p_mdat p) (zcrc32 (a_contents c a) (zcrc32 (a_header a) (p_crc p)))) with (strip q).
  rewrite <- (track_strip q a (a_contents c a)). destruct (track_atom q a (a_contents c a)) as [q2|x] eqn:E; [|split; [reflexivity|discriminate]]. cbn [bind fst snd]. apply T. now apply (track_good q a (a_contents c a)).
Qed.
Lemma loop_strip raw c : forall fuel pos p, all_good p ->
  (do r <- mov_loop fuel true (profile2 raw c) c pos p; Ok (strip r)) = mov_loop fuel true (profile0 c) c pos (strip p).
Proof.
  induction fuel as [|fuel IH]; intros pos p G; [reflexivity|]. cbn [mov_loop]. destruct (mov_next true c pos) as [[a|]|x]; cbn [bind]; [|reflexivity|reflexivity].
  destruct (profile_strip raw c p a G) as (E & K). rewrite <- E. destruct (profile2 raw c p a) as [[s m]|x]; [|reflexivity]. specialize (K _ eq_refl). cbn [bind fst snd] in *. destruct m; now apply IH.
Qed.
Lemma tracks_strip raw raw' c : (do p <- mov_read true (profile2 raw c) c (mkP [] None false 0 0 0); Ok (map bare2 (p_tracks p))) = (do p <- mov_read true (profile2 raw' c) c (mkP [] None false 0 0 0); Ok (map bare2 (p_tracks p))).
Proof.
  assert (T : forall raw, (do p <- mov_read true (profile2 raw c) c (mkP [] None false 0 0 0); Ok (map bare2 (p_tracks p))) = (do p <- mov_loop (1 + length c) true (profile0 c) c 0 (mkP [] None false 0 0 0); Ok (p_tracks p))); [|now rewrite !T].
  intros r. change (mkP [] None false 0 0 0) with (strip (mkP [] None false 0 0 0)) at 2. rewrite <- (loop_strip r) by constructor. unfold mov_read. destruct (mov_loop _ true (profile2 r c) c 0 _) as [p|x]; reflexivity.
Qed.
Lemma profile_same_at f path archived main : movie f path archived main -> movie f path [] main ->
  (do ms <- profile_at f path archived; Ok (map bare2 ms)) = (do p <- mp4_profile false main; Ok (map bare2 (p_tracks p))).
Proof.
  intros M M0. unfold profile_at. assert (G : exists raw, Srr.fs_get f path = Some raw).
  { destruct M as [(_ & G)|(s & first & vols & n & -> & Hd & Hs & _)]; [now exists main|]. destruct Hd as (_ & _ & _ & H4 & _). destruct vols as [|v vols]; [now destruct Hs|]. specialize (H4 O v eq_refl). rewrite N.add_0_r in H4. eexists. exact H4. }
  destruct G as (raw & ->). rewrite (open_same f path [] main _ M0), (open_same f path archived main _ M), run_size. cbn [bind]. rewrite profile_ok.
  transitivity (do p <- mov_read true (profile2 raw main) main (mkP [] None false 0 0 0); Ok (map bare2 (p_tracks p))).
  - destruct (mov_read _ _ _ _) as [p|x]; reflexivity.
  - rewrite (tracks_strip raw main main). reflexivity.
Qed.

(** ** The data of a track *)
Lemma more_ok c amount : forall rest first pos, (do r <- run (flat_op c) pos (p_ts_more first amount rest); Ok (fst r)) = Ok (ts_more c first amount rest).
Proof.
  induction rest as [|[o ss] rest IH]; intros first pos; cbn [p_ts_more ts_more]; destruct (_ <? _); try reflexivity.
  rewrite run_bind, run_start. cbn [bind fst snd]. rewrite run_bind, run_read, read_at_pos. cbn [bind fst snd]. apply IH.
Qed.
Lemma fst_ok {A} (x : result (A * N)) v : (do r <- x; Ok (fst r)) = Ok v -> exists q, x = Ok (v, q).
Proof. destruct x as [[a q]|e]; [|discriminate]. cbn [bind fst]. intros H. apply ok_inj in H. subst v. now exists q. Qed.
Lemma read_ok c offset sample ch rest amount pos : exists q, run (flat_op c) pos (p_ts_read offset sample ch rest amount) = Ok (ts_read c offset sample ch rest amount, q).
Proof.
  apply fst_ok. unfold p_ts_read, ts_read. cbv zeta. rewrite run_bind, run_start. cbn [bind fst snd]. destruct (_ <? _).
  - rewrite run_read, read_at_pos. reflexivity.
  - rewrite run_bind, run_read, read_at_pos. cbn [bind fst snd]. apply more_ok.
Qed.
Lemma find_loop_ok c sig all more : forall fuel offset sample ch rest pos,
  (do r <- run (flat_op c) pos (p_find_loop fuel sig all more offset sample ch rest); Ok (fst r)) = find_loop fuel c sig all more offset sample ch rest.
Proof.
  induction fuel as [|fuel IH]; intros offset sample ch rest pos; [reflexivity|]. cbn [p_find_loop find_loop]. rewrite run_bind. destruct (read_ok c offset sample ch rest (lenN sig) pos) as (q & ->). cbn [bind fst snd].
  destruct (beqb _ sig); [reflexivity|]. destruct (_ <? _); [apply IH|]. destruct rest as [|c2 rest]; [|apply IH]. rewrite run_bind. destruct (read_ok c (fst all) 0 all more (lenN sig) q) as (q2 & ->). reflexivity.
Qed.
Lemma find_stream_ok c sig l : (do r <- run (flat_op c) 0 (p_find_stream sig l); Ok (fst r)) = mp4_find_stream c sig l.
Proof. destruct l as [|ch rest]; [reflexivity|]. apply find_loop_ok. Qed.
Lemma extract_stream_ok c t m : (do l <- mp4_chunks m; do r <- run (flat_op c) 0 (p_extract_stream t l); Ok (fst r)) = mp4_extract_stream c t m.
Proof.
  unfold mp4_extract_stream. destruct (mp4_chunks m) as [l|x]; [|reflexivity]. cbn [bind]. unfold p_extract_stream. destruct (_ <? _)%Z; [reflexivity|]. cbv zeta. destruct (seek_chunk _ l None) as [[ch rest]|]; [|reflexivity].
  rewrite run_bind, run_lift. destruct (sample_nb _ _ _ _) as [n|x]; [|reflexivity]. cbn [bind fst snd]. rewrite run_bind. destruct (read_ok c (Z.to_N (t_offset t)) n ch rest (td_length (t_td t)) 0) as (q & ->). reflexivity.
Qed.
Lemma chunks_bare t : mp4_chunks (bare t) = mp4_chunks t.
Proof.
  unfold mp4_chunks. cbn [bare m_offsets]. generalize (m_offsets t) O 0. induction l as [|o l IH]; intros k n; [reflexivity|]. cbn [chunks_loop bare m_lengths m_sizes]. destruct (samples_in (m_lengths t) k); [|reflexivity]. cbn [bind]. now rewrite IH.
Qed.
Lemma fold_ext {A B} (g h : A -> B -> result A) l : (forall a b, g a b = h a b) -> forall a, foldR g l a = foldR h l a.
Proof. intros E. induction l as [|b l IH]; intros a; [reflexivity|]. cbn [foldR]. rewrite E. destruct (h a b); [|reflexivity]. cbn [bind]. apply IH. Qed.
Lemma fold_map {A B C} (g : A -> B -> result A) (h : C -> B) l : forall a, foldR g (map h l) a = foldR (fun a c => g a (h c)) l a.
Proof. induction l as [|b l IH]; intros a; [reflexivity|]. cbn [foldR map]. destruct (g a (h b)); [|reflexivity]. cbn [bind]. apply IH. Qed.
Lemma through {A} (g : mtracks -> result A) (x : result mtracks) (y : result pstate) : (do ms <- x; Ok (map bare2 ms)) = (do p <- y; Ok (map bare2 (p_tracks p))) -> (forall l, g l = g (map bare2 l)) ->
  (do ms <- x; g ms) = do p <- y; g (p_tracks p).
Proof. intros E H. destruct x as [ms|e], y as [p|e']; cbn [bind] in *; try discriminate; [|congruence]. apply ok_inj in E. now rewrite H, E, <- H. Qed.
Theorem mp4_find_same f path archived main ts : movie f path archived main -> movie f path [] main -> mp4_find_at f path archived ts = mp4_find ts main.
Proof.
  intros M M0. unfold mp4_find_at, mp4_find. rewrite (@through tracks (fun ms => foldR (find_step_at f path) ms ts) _ _ (profile_same_at f path archived main M M0)).
  - destruct (mp4_profile false main) as [p|x]; [|reflexivity]. cbn [bind]. apply fold_ext. intros a b. unfold find_step_at, find_step. destruct (get_track (fst b) a) as [t|x]; [|reflexivity]. destruct (mp4_chunks (snd b)) as [l|x]; [|reflexivity]. cbn [bind]. now rewrite (open_same f path [] main _ M0), find_stream_ok.
  - intros l. rewrite fold_map. apply fold_ext. intros a b. unfold find_step_at, bare2. cbn [fst snd]. now rewrite chunks_bare.
Qed.
Lemma map_ext_R {A B} (g h : A -> result B) l : (forall a, g a = h a) -> mapR g l = mapR h l.
Proof. intros E. induction l as [|a l IH]; [reflexivity|]. cbn [mapR]. now rewrite E, IH. Qed.
Theorem mp4_extract_same f path archived main ts : movie f path archived main -> movie f path [] main -> mp4_extract_at f path archived ts = mp4_extract ts main.
Proof.
  intros M M0. unfold mp4_extract_at, mp4_extract.
  etransitivity; [apply (through (fun ms : mtracks => mapR (fun t => match get_m (fst t) ms with None => Err KeyError | Some m => do l <- mp4_chunks m; do x <- open_run f path [] (p_extract_stream (snd t) l); Ok (fst t, x) end) ts) _ _ (profile_same_at f path archived main M M0))|].
  - intros l. apply map_ext_R. intros t. rewrite get_bare. destruct (get_m (fst t) l) as [m|]; [|reflexivity]. now rewrite chunks_bare.
  - destruct (mp4_profile false main) as [p|x]; [|reflexivity]. cbn [bind]. apply map_ext_R. intros t. destruct (get_m (fst t) (p_tracks p)) as [m|]; [|reflexivity]. rewrite <- extract_stream_ok. destruct (mp4_chunks m) as [l|x]; [|reflexivity]. cbn [bind]. now rewrite (open_same f path [] main _ M0).
Qed.
Theorem mp4_restore_same f path archived main no_stored srs : movie f path archived main -> movie f path [] main -> mp4_restore_at f path archived no_stored srs = mp4_restore no_stored srs main.
Proof. intros M M0. apply StrmProgFacts.rebuild_ext; intros ts; [now apply mp4_find_same|now apply mp4_extract_same]. Qed.
