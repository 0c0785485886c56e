(** AviFind: finding the tracks in the main file. *)
From Verif Require Import Base BaseFacts Crc CrcFacts SrsRec SrsRecSpec SrsRecFacts Srs SrrFacts StrmFacts Avi StrmSpec Mp3Spec AviSpec AviRead AviSrs AviOut AviExtract.

(** ** The loop *)
Definition find_data (e : bytes) (at_ : N) (t : track) (check : bytes) : track * bytes :=
  let sig := td_signature (t_td t) in
  let len := td_length (t_td t) in
  if (t_offset t =? 0)%Z || (lenN check <? lenN sig) then
    if negb (lenN sig =? 0) then
      let '(t, check, data) :=
        if (0 <? lenN check) && (lenN check <? lenN sig) then
          let more := check ++ takeN (N.min (lenN sig) (lenN e + lenN check) - lenN check) e in
          if starts_with Byte.eqb more sig then (t, more, []) else (located t 0 0, [], e)
        else (t, check, e) in
      match check with
      | [] =>
        match find_start sig data 0 with
        | Some (pos, check) => (located t (Z.of_N (at_ + pos)) (N.min len (lenN data - pos)), check)
        | None => (t, check)
        end
      | _ => (t, check)
      end
    else (located t (t_offset t) (N.min (len - t_match t) (lenN e)), check)
  else if t_match t <? len then (located t (t_offset t) (t_match t + N.min (len - t_match t) (lenN e)), check)
  else (t, check).
Definition find' (s : fstate) (pos : N) (i : item) : result (fstate * bool) :=
  match i with
  | Lst _ _ _ => Ok (s, true)
  | Chk cc e pad =>
    match stream_no cc with
    | None => Ok (s, true)
    | Some n =>
      let '(ts, checks, done) := s in
      let ts := with_new n ts in
      do t <- get_track n ts;
      let r := find_data e (pos + 8) t (checks n) in
      let ts := set_track n (fst r) ts in
      Ok ((ts, upd checks n (snd r), if counting t (checks n) then all_found ts else done), true)
    end
  end.
Lemma find_data_is f a b cc e pad t check : item_ok (Chk cc e pad) -> f = a ++ enc false (Chk cc e pad) ++ b ->
  find_chunk f (ck (Chk cc e pad) (lenN a)) t check = Ok (find_data e (lenN a + 8) t check).
Proof.
  intros I E. unfold find_chunk, find_data. assert (Ag : riff_again f (ck (Chk cc e pad) (lenN a)) = Ok e).
  { unfold riff_again. rewrite (contents_is f a b cc e pad I E). change (c_length (ck (Chk cc e pad) (lenN a))) with (Z.of_N (lenN e)).
    replace (Z.of_N (c_data (ck (Chk cc e pad) (lenN a)) + lenN e) - Z.of_N (lenN e))%Z with (Z.of_N (c_data (ck (Chk cc e pad) (lenN a)))) by lia.
    replace (Z.of_N (c_data (ck (Chk cc e pad) (lenN a))) <? 0)%Z with false by lia. rewrite N2Z.id. f_equal. exact (contents_is f a b cc e pad I E). }
  rewrite Ag. clear Ag. rewrite (contents_is f a b cc e pad I E). rewrite (ck_data cc e pad (lenN a)) by exact (proj1 (proj1 I)). change (c_length (ck (Chk cc e pad) (lenN a))) with (Z.of_N (lenN e)). rewrite N2Z.id. cbv zeta.
  destruct ((t_offset t =? 0)%Z || (lenN check <? lenN (td_signature (t_td t)))); [|destruct (t_match t <? td_length (t_td t)); reflexivity].
  destruct (negb (lenN (td_signature (t_td t)) =? 0)); [|reflexivity].
  assert (K : forall t check data, match check with [] => match find_start (td_signature (t_td t)) data 0 with Some (pos, check) => @Ok (track * bytes) (located t (Z.of_N (lenN a + 8 + pos)) (N.min (td_length (t_td t)) (lenN data - pos)), check) | None => Ok (t, check) end | _ => Ok (t, check) end
     = Ok (match check with [] => match find_start (td_signature (t_td t)) data 0 with Some (pos, check) => (located t (Z.of_N (lenN a + 8 + pos)) (N.min (td_length (t_td t)) (lenN data - pos)), check) | None => (t, check) end | _ => (t, check) end)).
  { intros t0 [|x c] data; [|reflexivity]. destruct (find_start _ data 0) as [(p, c)|]; reflexivity. }
  destruct ((0 <? lenN check) && (lenN check <? lenN (td_signature (t_td t)))); [|apply (K t check e)].
  destruct (starts_with Byte.eqb _ (td_signature (t_td t))); cbn [bind]; [apply (K t _ [])|apply (K (located t 0 0) [] e)].
Qed.
Lemma find_acts f its : Forall item_ok its -> acts false (find_step f) find' f its.
Proof.
  intros F a i b s Hi E. rewrite Forall_forall in F. specialize (F i Hi). destruct s as ((ts, checks), done). destruct i as [ty size name|cc d pad]; [reflexivity|].
  unfold find_step, find'. change (c_kind (ck (Chk cc d pad) (lenN a))) with (kind cc). rewrite (skip_is f a b cc d pad F E). rewrite (read_is f a b cc d pad F false E) by discriminate. cbn [bind fst snd]. unfold kind.
  destruct (stream_no cc) as [n|]; [|destruct (beqb cc (bstr "idx1")); reflexivity]. destruct (get_track n (with_new n ts)) as [t|e]; [|reflexivity]. cbn [bind].
  rewrite (find_data_is f a b cc d pad t _ F E). destruct (reads_chunk t (checks n)); reflexivity.
Qed.

(** ** Prefixes *)
Lemma starts_with_is a b : starts_with Byte.eqb a b = true <-> starts a b.
Proof.
  revert b. induction a as [|x a IH]; intros b; cbn [starts_with]; [split; [intros _; now exists b|reflexivity]|]. destruct b as [|y b]; [split; [discriminate|intros (r & X); discriminate X]|].
  rewrite andb_true_iff, IH. split.
  - intros (X & (r & ->)). apply Byte.byte_dec_bl in X. subst y. now exists r.
  - intros (r & X). injection X as -> ->. split; [now apply Byte.byte_dec_lb|now exists r].
Qed.
Lemma find_start_some sig data : forall pos p c, find_start sig data pos = Some (p, c) -> exists a b, data = a ++ b /\ b <> [] /\ p = pos + lenN a /\ c = takeN (lenN sig) b /\ starts c sig.
Proof.
  induction data as [|x data IH]; intros pos p c H; [discriminate|]. cbn [find_start] in H. destruct (starts_with Byte.eqb (takeN (lenN sig) (x :: data)) sig) eqn:St.
  - apply some_inj in H. injection H as <- <-. exists [], (x :: data). split; [reflexivity|]. split; [discriminate|]. split; [cbn [lenN]; lia|]. split; [reflexivity|]. now apply starts_with_is.
  - apply IH in H as (a & b & -> & Nb & -> & Ec & Sc). exists (x :: a), b. split; [reflexivity|]. split; [exact Nb|]. split; [rewrite lenN_cons; lia|]. now split.
Qed.
Lemma find_start_at sig d1 d2 : (forall a b, d1 = a ++ b -> b <> [] -> ~ starts (takeN (lenN sig) (b ++ d2)) sig) -> d2 <> [] -> starts (takeN (lenN sig) d2) sig ->
  forall pos, find_start sig (d1 ++ d2) pos = Some (pos + lenN d1, takeN (lenN sig) d2).
Proof.
  intros H N2 St. induction d1 as [|x d1 IH]; intros pos.
  - destruct d2 as [|y d2]; [contradiction|]. cbn [app find_start]. rewrite (proj2 (starts_with_is _ _) St). cbn [lenN]. now rewrite N.add_0_r.
  - cbn [app find_start]. replace (starts_with Byte.eqb (takeN (lenN sig) (x :: d1 ++ d2)) sig) with false.
    + rewrite IH; [rewrite lenN_cons; do 2 f_equal; lia|]. intros a b E. apply (H (x :: a) b). now rewrite E.
    + symmetry. apply not_true_is_false. rewrite starts_with_is. apply (H [] (x :: d1)); [reflexivity|discriminate].
Qed.
Lemma takeN_starts {A} n (a b : list A) : (exists r, b = a ++ r) -> n <= lenN a -> takeN n a = takeN n b.
Proof. intros (r & ->) L. symmetry. now apply takeN_app_le. Qed.
Lemma starts_takes n d x : starts d x -> n <= lenN d -> forall y, starts y x -> starts (takeN n y) (takeN n d).
Proof.
  intros (r & ->) L y (q & E). replace (takeN n d) with (takeN n (y ++ q)) by (rewrite <- E; now apply takeN_app_le). rewrite takeN_app. now exists (takeN (n - lenN y) q).
Qed.
Lemma more_is n (c e : bytes) : lenN c <= n -> c ++ takeN (N.min n (lenN e + lenN c) - lenN c) e = takeN n (c ++ e).
Proof.
  intros L. rewrite takeN_app_ge by exact L. f_equal. destruct (N.leb_spec n (lenN e + lenN c)); [f_equal; lia|]. rewrite !takeN_all by lia. reflexivity.
Qed.
Lemma short_take n (b : bytes) : lenN (takeN n b) < n -> takeN n b = b.
Proof. rewrite lenN_takeN. intros H. apply takeN_all. lia. Qed.

(** ** One track *)
Section One.
Variables (n : N) (d : bytes) (ms : list item) (o : N) (d1 : bytes).
Variables (pre : list item) (cc0 d2 pad0 : bytes) (post : list item).
Hypothesis Ems : ms = pre ++ Chk cc0 (d1 ++ d2) pad0 :: post.
Hypothesis Sn0 : stream_no cc0 = Some n.
Hypothesis N2 : d2 <> [].
Hypothesis Eo : o = lenN (file_of pre) + 8 + lenN d1.
Hypothesis St : starts d (d2 ++ data_of n post).
Hypothesis First : forall a b, data_of n pre ++ d1 = a ++ b -> b <> [] -> ~ starts (takeN (lenN (takeN 256 d)) (b ++ d2)) (takeN 256 d).
Hypothesis Nd : d <> [].
Let sig := takeN 256 d.
Definition is_td (t : track) : Prop := td_signature (t_td t) = sig /\ td_length (t_td t) = lenN d.
Definition waiting (p : list item) (t : track) (check : bytes) : Prop :=
  (exists q, pre = p ++ q) /\ t_match t < lenN d /\ (check = [] \/ exists a b, data_of n p = a ++ b /\ b <> [] /\ check = takeN (lenN sig) b /\ starts check sig).
Definition found (p : list item) (t : track) (check : bytes) : Prop :=
  t_offset t = Z.of_N o /\ exists q r, p = pre ++ Chk cc0 (d1 ++ d2) pad0 :: q /\ post = q ++ r /\ check = takeN (lenN sig) (d2 ++ data_of n q).
Definition tstate (p : list item) (t : track) (check : bytes) : Prop := is_td t /\ (waiting p t check \/ found p t check).
Lemma sig_len : 0 < lenN sig /\ lenN sig <= lenN d.
Proof. unfold sig. rewrite lenN_takeN. destruct d; [contradiction|]. rewrite lenN_cons. lia. Qed.
Lemma sig_take : takeN (lenN sig) d = sig.
Proof. unfold sig. rewrite lenN_takeN. destruct (N.min_spec 256 (lenN d)) as [(L & ->)|(L & ->)]; [reflexivity|]. rewrite !takeN_all by lia. reflexivity. Qed.
(** what is read from the place of the track is the signature *)
Lemma begins q r : post = q ++ r -> starts (takeN (lenN sig) (d2 ++ data_of n q)) sig.
Proof.
  intros E. rewrite <- sig_take at 2. apply (starts_takes (lenN sig) d (d2 ++ data_of n post)); [exact St|apply sig_len|]. exists (data_of n r). rewrite E, data_app. now rewrite app_assoc.
Qed.
(** a place before that is given up at the latest with the chunk of the place *)
Lemma partial_short a b c : data_of n pre ++ d1 = a ++ b ++ c -> b <> [] -> starts (takeN (lenN sig) b) sig -> lenN b < lenN sig.
Proof.
  intros E Nb S. destruct (N.ltb_spec (lenN b) (lenN sig)) as [L|L]; [exact L|exfalso]. apply (First a (b ++ c) E); [destruct b; [contradiction|discriminate]|]. fold sig. rewrite <- app_assoc. rewrite takeN_app_le by exact L. exact S.
Qed.
Lemma data_split p q : pre = p ++ q -> data_of n pre ++ d1 = data_of n p ++ data_of n q ++ d1.
Proof. intros ->. now rewrite data_app, <- app_assoc. Qed.
Lemma other_step p i t check r : ms = p ++ i :: r -> piece n i = [] -> ~ has_stream n [i] -> tstate p t check -> tstate (p ++ [i]) t check.
Proof.
  intros E P H (T & [((q & Eq) & L & C)|(Ho & q & s & Ep & Es & Ec)]); (split; [exact T|]).
  - left. split; [|split; [exact L|]].
    + destruct q as [|j q]; [exfalso|exists q].
      * rewrite app_nil_r in Eq. rewrite Ems, Eq in E. apply app_inv_head in E. injection E as E _. apply H. rewrite <- E. now apply has_one.
      * rewrite Ems, Eq, <- !app_assoc in E. apply app_inv_head in E. injection E as -> _. now rewrite <- app_assoc.
    + destruct C as [C|(a & b & D & C)]; [now left|right]. exists a, b. split; [|exact C]. rewrite data_app. cbn [data_of map concat]. rewrite P. now rewrite !app_nil_r.
  - right. split; [exact Ho|]. rewrite Ems, Ep, <- app_assoc in E. apply app_inv_head in E. cbn [app] in E. injection E as E. rewrite Es in E. apply app_inv_head in E. subst s.
    exists (q ++ [i]), r. split; [rewrite Ep, <- app_assoc; reflexivity|]. split; [rewrite Es, <- app_assoc; reflexivity|]. rewrite data_app. cbn [data_of map concat]. rewrite P. now rewrite !app_nil_r.
Qed.
Lemma own_step p cc e pad t check r : ms = p ++ Chk cc e pad :: r -> stream_no cc = Some n -> tstate p t check ->
  let x := find_data e (lenN (file_of p) + 8) t check in tstate (p ++ [Chk cc e pad]) (fst x) (snd x).
Proof.
  intros E Sn (T & S). destruct T as (T1 & T2). destruct sig_len as (S1 & S2). cbv zeta. unfold find_data. rewrite T1, T2. replace (negb (lenN sig =? 0)) with true by lia.
  assert (Pe : piece n (Chk cc e pad) = e) by now apply piece_own. assert (De : data_of n (p ++ [Chk cc e pad]) = data_of n p ++ e) by (rewrite data_app; cbn [data_of map concat]; now rewrite Pe, app_nil_r).
  destruct S as [((q & Eq) & L & C)|(Ho & q & s & Ep & Es & Ec)].
  - (* not yet found *)
    assert (Lc : lenN check < lenN sig).
    { destruct C as [->|(a & b & D & Nb & -> & Sc)]; [cbn [lenN]; lia|]. rewrite lenN_takeN. assert (lenN b < lenN sig); [|lia]. apply (partial_short a b (data_of n q ++ d1)); [|exact Nb|exact Sc]. rewrite (data_split p q Eq), D, <- !app_assoc. reflexivity. }
    replace ((t_offset t =? 0)%Z || (lenN check <? lenN sig)) with true by (symmetry; apply orb_true_iff; right; lia). replace (lenN check <? lenN sig) with true by lia. rewrite andb_true_r.
    (* what a search in this chunk gives *)
    assert (K : forall t', is_td t' -> t_match t' < lenN d ->
      let x := match find_start sig e 0 with Some (pos, c) => (located t' (Z.of_N (lenN (file_of p) + 8 + pos)) (N.min (lenN d) (lenN e - pos)), c) | None => (t', [] : bytes) end in tstate (p ++ [Chk cc e pad]) (fst x) (snd x)).
    { intros t' T' L'. destruct q as [|j q].
      - rewrite app_nil_r in Eq. rewrite Ems, <- Eq in E. apply app_inv_head in E. injection E as E1 E2 E3 E4. subst cc e pad r.
        rewrite (find_start_at sig d1 d2); [|intros a b Ed Nb; apply (First (data_of n p ++ a) b); [rewrite Eq, Ed, <- app_assoc; reflexivity|exact Nb]|exact N2|].
        2: { pose proof (begins [] post eq_refl) as B. cbn [data_of map concat] in B. now rewrite app_nil_r in B. }
        cbn [fst snd]. split; [exact T'|]. right. split; [cbn [located t_offset]; rewrite Eo, Eq; f_equal; lia|]. exists [], post. split; [now rewrite Eq|]. split; [reflexivity|]. cbn [data_of map concat]. now rewrite app_nil_r.
      - assert (Hj : j = Chk cc e pad) by (rewrite Ems, Eq, <- !app_assoc in E; apply app_inv_head in E; now injection E). subst j.
        assert (Hq : pre = (p ++ [Chk cc e pad]) ++ q) by (now rewrite <- app_assoc).
        destruct (find_start sig e 0) as [(pos, c)|] eqn:Fs; cbn [fst snd].
        + apply find_start_some in Fs as (a & b & Ee & Nb & -> & Ec & Sc). split; [exact T'|]. left. split; [now exists q|].
          assert (Hs : data_of n pre ++ d1 = (data_of n p ++ a) ++ b ++ data_of n q ++ d1) by (rewrite (data_split _ _ Hq), De, Ee, <- !app_assoc; reflexivity). split.
          * cbn [located t_match]. rewrite Ec in Sc. pose proof (partial_short _ _ _ Hs Nb Sc). rewrite Ee, lenN_app. lia.
          * right. exists (data_of n p ++ a), b. split; [rewrite De, Ee, <- app_assoc; reflexivity|]. split; [exact Nb|]. now split.
        + split; [exact T'|]. left. split; [now exists q|]. split; [exact L'|now left]. }
    destruct C as [->|(a & b & D & Nb & Ec & Sc)].
    + cbn [lenN N.ltb N.compare]. exact (K t (conj T1 T2) L).
    + assert (Eb : check = b) by (rewrite Ec in Lc |- *; now apply short_take). subst b. replace (0 <? lenN check) with true by (destruct check; [contradiction|rewrite lenN_cons; lia]).
      rewrite more_is by lia. destruct (starts_with Byte.eqb (takeN (lenN sig) (check ++ e)) sig) eqn:Sw.
      * apply starts_with_is in Sw.
        assert (Nt : takeN (lenN sig) (check ++ e) <> []) by (intros X; apply (f_equal (@lenN byte)) in X; rewrite lenN_takeN, lenN_app in X; destruct check; [contradiction|]; rewrite lenN_cons in X; cbn [lenN] in X; lia).
        replace (match takeN (lenN sig) (check ++ e) with [] => match find_start sig [] 0 with Some (pos, c) => (located t (Z.of_N (lenN (file_of p) + 8 + pos)) (N.min (lenN d) (lenN (@nil byte) - pos)), c) | None => (t, takeN (lenN sig) (check ++ e)) end | _ :: _ => (t, takeN (lenN sig) (check ++ e)) end) with (t, takeN (lenN sig) (check ++ e)) by (destruct (takeN (lenN sig) (check ++ e)); [contradiction|reflexivity]).
        cbn [fst snd]. destruct q as [|j q].
        -- exfalso. rewrite app_nil_r in Eq. rewrite Ems, <- Eq in E. apply app_inv_head in E. injection E as E1 E2 E3 E4. subst cc e pad r. apply (First a (check ++ d1)); [rewrite Eq, D, <- app_assoc; reflexivity|destruct check; [contradiction|discriminate]|]. rewrite <- app_assoc. exact Sw.
        -- assert (Hj : j = Chk cc e pad) by (rewrite Ems, Eq, <- !app_assoc in E; apply app_inv_head in E; now injection E). subst j.
           split; [now split|]. left. split; [exists q; now rewrite <- app_assoc|]. split; [exact L|]. right. exists a, (check ++ e). split; [rewrite De, D, <- app_assoc; reflexivity|]. split; [destruct check; [contradiction|discriminate]|]. now split.
      * exact (K (located t 0 0) (conj T1 T2) ltac:(cbn [located t_match]; lia)).
  - (* found *)
    assert (Er : s = Chk cc e pad :: r).
    { rewrite Ems, Ep, <- app_assoc in E. apply app_inv_head in E. cbn [app] in E. injection E as E. rewrite Es in E. now apply app_inv_head in E. }
    assert (Fin : forall t' c', is_td t' -> t_offset t' = Z.of_N o -> c' = takeN (lenN sig) (d2 ++ data_of n q ++ e) -> tstate (p ++ [Chk cc e pad]) t' c').
    { intros t' c' T' Ho' ->. split; [exact T'|]. right. split; [exact Ho'|]. exists (q ++ [Chk cc e pad]), r. split; [rewrite Ep, <- app_assoc; reflexivity|]. split; [rewrite Es, Er, <- app_assoc; reflexivity|].
      rewrite data_app. cbn [data_of map concat]. now rewrite Pe, app_nil_r. }
    replace (t_offset t =? 0)%Z with false by lia. cbn [orb]. destruct (N.ltb_spec (lenN check) (lenN sig)) as [Lc|Lc].
    + assert (Eb : check = d2 ++ data_of n q) by (rewrite Ec in Lc |- *; now apply short_take). replace (0 <? lenN check) with true by (rewrite Eb; destruct d2; [contradiction|cbn [app]; rewrite lenN_cons; lia]). cbn [andb].
      rewrite more_is by lia. replace (takeN (lenN sig) (check ++ e)) with (takeN (lenN sig) (d2 ++ data_of n q ++ e)) by (now rewrite Eb, <- app_assoc).
      replace (starts_with Byte.eqb (takeN (lenN sig) (d2 ++ data_of n q ++ e)) sig) with true.
      * destruct (takeN (lenN sig) (d2 ++ data_of n q ++ e)) as [|x y] eqn:Et; [|apply Fin; [now split|exact Ho|reflexivity]].
        exfalso. apply (f_equal (@lenN byte)) in Et. rewrite lenN_takeN, lenN_app in Et. destruct d2; [contradiction|]. rewrite lenN_cons in Et. cbn [lenN] in Et. lia.
      * symmetry. apply starts_with_is. pose proof (begins (q ++ [Chk cc e pad]) r) as B. rewrite data_app in B. cbn [data_of map concat] in B. rewrite Pe, app_nil_r in B. apply B. rewrite Es, Er, <- app_assoc. reflexivity.
    + assert (Ef : check = takeN (lenN sig) (d2 ++ data_of n q ++ e)).
      { rewrite Ec in *. rewrite app_assoc. symmetry. apply takeN_app_le. rewrite lenN_takeN in Lc. lia. }
      destruct (t_match t <? lenN d); (apply Fin; [now split|exact Ho|exact Ef]).
Qed.
Lemma end_found t check : tstate ms t check -> t_offset t = Z.of_N o.
Proof.
  intros (_ & [((q & Eq) & _)|(Ho & _)]); [exfalso|exact Ho]. apply (f_equal (@length item)) in Eq. rewrite Ems, !app_length in Eq. cbn [length] in Eq. clear -Eq. lia.
Qed.
Lemma full_found p t check : tstate p t check -> lenN d <= t_match t -> t_offset t = Z.of_N o.
Proof. intros (_ & [(_ & L & _)|(Ho & _)]) H; [clear -L H; lia|exact Ho]. Qed.
End One.

(** ** All tracks *)
Lemma find_data_keeps e at_ t check : t_td (fst (find_data e at_ t check)) = t_td t /\ t_file (fst (find_data e at_ t check)) = t_file t.
Proof.
  unfold find_data. cbv zeta. destruct ((t_offset t =? 0)%Z || (lenN check <? lenN (td_signature (t_td t)))); [|destruct (t_match t <? td_length (t_td t)); now split].
  destruct (negb (lenN (td_signature (t_td t)) =? 0)); [|now split].
  assert (K : forall t check data, let x := match check with [] => match find_start (td_signature (t_td t)) data 0 with Some (pos, check) => (located t (Z.of_N (at_ + pos)) (N.min (td_length (t_td t)) (lenN data - pos)), check) | None => (t, check) end | _ => (t, check) end in
     t_td (fst x) = t_td t /\ t_file (fst x) = t_file t).
  { intros t0 [|x c] data; [|now split]. destruct (find_start _ data 0) as [(p, c)|]; now split. }
  destruct ((0 <? lenN check) && (lenN check <? lenN (td_signature (t_td t)))); [|apply (K t check e)].
  destruct (starts_with Byte.eqb _ (td_signature (t_td t))); cbn [bind]; [apply (K t _ [])|apply (K (located t 0 0) [] e)].
Qed.
Lemma find_data_none e at_ t check : td_signature (t_td t) = [] -> t_offset (fst (find_data e at_ t check)) = t_offset t.
Proof.
  intros E. unfold find_data. rewrite E. cbv zeta. change (negb (lenN (@nil byte) =? 0)) with false. cbv iota. destruct ((t_offset t =? 0)%Z || (lenN check <? lenN (@nil byte))); [reflexivity|]. destruct (t_match t <? td_length (t_td t)); reflexivity.
Qed.
Lemma found_table g ns : all_found (table g ns) = true -> forall n, In n ns -> td_length (t_td (g n)) <= t_match (g n).
Proof. intros H n Hn. unfold all_found in H. rewrite forallb_forall in H. specialize (H (n, g n)). cbn [snd] in H. assert (X : (td_length (t_td (g n)) <=? t_match (g n)) = true) by (apply H; unfold table; apply in_map_iff; now exists n). lia. Qed.
Section All.
Variables (its ms : list item) (at_ : N -> N) (ns0 : list N) (td0 : N -> track_data).
Hypothesis Td0 : forall n, In n ns0 -> td_signature (td0 n) = takeN 256 (data_of n its) /\ td_length (td0 n) = lenN (data_of n its) /\ data_of n its <> [].
Hypothesis Td1 : forall n, ~ In n ns0 -> td0 n = t_td (new_track n).
Definition st (n : N) (p : list item) (t : track) (check : bytes) : Prop :=
  exists d1 pre cc d2 pad post, (ms = pre ++ Chk cc (d1 ++ d2) pad :: post /\ stream_no cc = Some n /\ d2 <> [] /\
    at_ n = lenN (file_of pre) + 8 + lenN d1 /\ starts (data_of n its) (d2 ++ data_of n post) /\
    forall a b, data_of n pre ++ d1 = a ++ b -> b <> [] -> ~ starts (takeN (lenN (takeN 256 (data_of n its))) (b ++ d2)) (takeN 256 (data_of n its))) /\
  tstate n (data_of n its) (at_ n) d1 pre cc d2 pad post p t check.
Definition gs (p : list item) (g : N -> track) (checks : N -> bytes) : Prop :=
  forall n, t_file (g n) = None /\ t_td (g n) = td0 n /\ (In n ns0 -> st n p (g n) (checks n)) /\ (~ In n ns0 -> t_offset (g n) = 0%Z).
Lemma st_other n p i r t check : ms = p ++ i :: r -> ~ has_stream n [i] -> st n p t check -> st n (p ++ [i]) t check.
Proof.
  intros E H (d1 & pre & cc & d2 & pad & post & (A & B & C & D & F & G) & T). exists d1, pre, cc, d2, pad, post. split; [now repeat (split; [assumption|])|].
  apply (other_step n (data_of n its) ms (at_ n) d1 pre cc d2 pad post A B p i t check r E); [now apply piece_other|exact H|exact T].
Qed.
Lemma st_own n p cc e pad r t check : In n ns0 -> ms = p ++ Chk cc e pad :: r -> stream_no cc = Some n -> st n p t check -> let x := find_data e (lenN (file_of p) + 8) t check in st n (p ++ [Chk cc e pad]) (fst x) (snd x).
Proof.
  intros Hn E H (d1 & pre & cc0 & d2 & pad0 & post & (A & B & C & D & F & G) & T) x. exists d1, pre, cc0, d2, pad0, post. split; [now repeat (split; [assumption|])|].
  exact (own_step n (data_of n its) ms (at_ n) d1 pre cc0 d2 pad0 post A C D F G (proj2 (proj2 (Td0 n Hn))) p cc e pad t check r E H T).
Qed.
Lemma find_run r : forall p g ns checks done, ms = p ++ r -> NoDup ns -> (forall n, ~ In n ns -> g n = new_track n) -> (forall n, In n ns0 -> In n ns) -> gs p g checks ->
  (done = true -> forall n, In n ns0 -> t_offset (g n) = Z.of_N (at_ n)) ->
  exists g' ns' c' done', irun false fs_done find' r (lenN (file_of p)) (table g ns : tracks, checks, done) = Ok (table g' ns' : tracks, c', done') /\ NoDup ns' /\ (forall n, ~ In n ns' -> g' n = new_track n) /\
  (forall n, In n ns -> In n ns') /\ (forall n, In n ns' -> In n ns \/ has_stream n r) /\
  forall n, t_file (g' n) = None /\ t_td (g' n) = td0 n /\ (In n ns0 -> t_offset (g' n) = Z.of_N (at_ n)) /\ (~ In n ns0 -> t_offset (g' n) = 0%Z).
Proof.
  induction r as [|i r IH]; intros p g ns checks done E Nd New Hin G Dn.
  { exists g, ns, checks, done. split; [reflexivity|]. split; [exact Nd|]. split; [exact New|]. split; [auto|]. split; [auto|]. intros n. destruct (G n) as (G1 & G2 & G3 & G4). split; [exact G1|]. split; [exact G2|]. split; [|exact G4].
    intros Hn. destruct (G3 Hn) as (d1 & pre & cc & d2 & pad & post & (A & _) & T). rewrite app_nil_r in E. rewrite <- E in T. eapply end_found; [exact A|exact T]. }
  cbn [irun]. unfold fs_done at 1. cbn [snd]. destruct done.
  { specialize (Dn eq_refl). exists g, ns, checks, true. split; [reflexivity|]. split; [exact Nd|]. split; [exact New|]. split; [auto|]. split; [auto|]. intros n. destruct (G n) as (G1 & G2 & G3 & G4). split; [exact G1|]. split; [exact G2|]. split; [exact (Dn n)|exact G4]. }
  clear Dn. assert (Ep : lenN (file_of (p ++ [i])) = lenN (file_of p) + lenN (enc false i)) by (rewrite file_app, lenN_app, enc_false; unfold file_of at 2; cbn [map concat]; now rewrite app_nil_r).
  assert (E' : ms = (p ++ [i]) ++ r) by (rewrite <- app_assoc; exact E).
  assert (Skip : (forall n, ~ has_stream n [i]) -> find' (table g ns : tracks, checks, false) (lenN (file_of p)) i = Ok ((table g ns : tracks, checks, false), true) ->
    exists g' ns' c' done', (do x <- find' (table g ns : tracks, checks, false) (lenN (file_of p)) i; if snd x then irun false fs_done find' r (lenN (file_of p) + lenN (enc false i)) (fst x) else Ok (fst x)) = Ok (table g' ns' : tracks, c', done') /\ NoDup ns' /\ (forall n, ~ In n ns' -> g' n = new_track n) /\
    (forall n, In n ns -> In n ns') /\ (forall n, In n ns' -> In n ns \/ has_stream n (i :: r)) /\
    forall n, t_file (g' n) = None /\ t_td (g' n) = td0 n /\ (In n ns0 -> t_offset (g' n) = Z.of_N (at_ n)) /\ (~ In n ns0 -> t_offset (g' n) = 0%Z)).
  { intros Hs Hf. rewrite Hf. cbn [bind fst snd]. rewrite <- Ep. destruct (IH (p ++ [i]) g ns checks false E' Nd New Hin) as (g' & ns' & c' & done' & R & A & B & C & D & F); [|discriminate|].
    - intros n. destruct (G n) as (G1 & G2 & G3 & G4). split; [exact G1|]. split; [exact G2|]. split; [|exact G4]. intros Hn. apply (st_other n p i r); [exact E|apply Hs|now apply G3].
    - exists g', ns', c', done'. split; [exact R|]. split; [exact A|]. split; [exact B|]. split; [exact C|]. split; [|exact F]. intros n Hn. destruct (D n Hn); [now left|right; apply has_cons; now right]. }
  destruct i as [ty size name|cc e pad]; [apply Skip; [intros n; apply has_list|reflexivity]|].
  destruct (stream_no cc) as [n|] eqn:Sn.
  2: { apply Skip; [intros n (c & x & q & [X|[]] & Y); injection X as <- <- <-; congruence|]. unfold find'. now rewrite Sn. }
  clear Skip. unfold find' at 1. rewrite Sn. rewrite (with_new_table g ns n New). rewrite (get_table g _ n) by (apply enlists_in; now right). cbn [bind].
  pose proof (enlists_nodup ns n Nd) as Nd1. assert (Hn1 : In n (enlists ns n)) by (apply enlists_in; now right). set (x := find_data e (lenN (file_of p) + 8) (g n) (checks n)).
  rewrite set_table by assumption. cbn [fst snd]. set (g1 := fun k => if k =? n then fst x else g k).
  assert (G1 : gs (p ++ [Chk cc e pad]) g1 (upd checks n (snd x))).
  { intros k. unfold g1, upd. destruct (G k) as (H1 & H2 & H3 & H4). destruct (N.eqb_spec k n) as [->|Nk].
    - destruct (find_data_keeps e (lenN (file_of p) + 8) (g n) (checks n)) as (K1 & K2). fold x in K1, K2. split; [congruence|]. split; [congruence|]. split.
      + intros Hn. apply (st_own n p cc e pad r); [exact Hn|exact E|exact Sn|now apply H3].
      + intros Hn. unfold x. rewrite find_data_none; [now apply H4|]. rewrite H2, (Td1 n Hn). reflexivity.
    - split; [exact H1|]. split; [exact H2|]. split; [|exact H4]. intros Hk. apply (st_other k p (Chk cc e pad) r); [exact E| |now apply H3]. intros X. apply has_one in X. congruence. }
  rewrite <- Ep. destruct (IH (p ++ [Chk cc e pad]) g1 (enlists ns n) (upd checks n (snd x)) (if counting (g n) (checks n) then all_found (table g1 (enlists ns n)) else false) E' Nd1) as (g' & ns' & c' & done' & R & A & B & C & D & F).
  - intros k Hk. unfold g1. destruct (N.eqb_spec k n) as [->|]; [now destruct Hk|]. apply New. intros X. apply Hk, enlists_in. now left.
  - intros k Hk. apply enlists_in. left. now apply Hin.
  - exact G1.
  - destruct (counting (g n) (checks n)); [|discriminate]. intros Af k Hk. pose proof (found_table g1 _ Af k (proj2 (enlists_in ns n k) (or_introl (Hin k Hk)))) as Lk. destruct (G1 k) as (_ & H2 & H3 & _).
    destruct (H3 Hk) as (d1 & pre & c0 & d2 & pad0 & post & _ & T). eapply full_found; [exact T|].
    rewrite H2, (proj1 (proj2 (Td0 k Hk))) in Lk. exact Lk.
  - exists g', ns', c', done'. split; [exact R|]. split; [exact A|]. split; [exact B|]. split; [intros k Hk; apply C, enlists_in; now left|]. split; [|exact F].
    intros k Hk. destruct (D k Hk) as [X|X]; [apply enlists_in in X as [X| ->]; [now left|right; apply has_cons; left; now apply has_one]|right; apply has_cons; now right].
Qed.
End All.
