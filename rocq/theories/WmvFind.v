(** WmvFind: the payloads of the main file one after the other, and finding the tracks in them. *)
From Verif Require Import Base BaseFacts Crc CrcFacts SrsRec SrsRecSpec SrsRecFacts Srs SrrFacts StrmFacts Avi Wmv StrmSpec Mp3Spec WmvSpec WmvPacket WmvRead WmvSrs WmvLoad WmvOut.
From Verif Require AviSrs AviExtract AviFind.
Import AviSrs(table, table_keys, table_ext, get_table, set_table).
Import AviExtract(fl, enlists, with_new_table, enlists_nodup, enlists_in).
Import AviFind(starts_with_is, find_start_some, find_start_at, starts_takes, more_is, short_take, found_table).

(** ** Cell by cell *)
Section Flat.
Context {S : Type}.
Variable step : S -> cell -> result S.
Fixpoint crun (cs : list cell) (s : S) : result S := match cs with [] => Ok s | c :: cs => do s <- step s c; crun cs s end.
Lemma crun_app a : forall b s, crun (a ++ b) s = do s <- crun a s; crun b s.
Proof. induction a as [|c a IH]; intros b s; [reflexivity|]. cbn [app crun]. destruct (step s c); [cbn [bind]; apply IH|reflexivity]. Qed.
Variables (act : S -> N -> bytes -> parsed -> result (S * bool)) (fin : S -> bool).
Hypothesis Act : forall s off k, act s off (pk_bytes k) (pk_parsed false k) = do s <- crun (cells_of off (pk_pieces k)) s; Ok (s, fin s).
(** up to the end of a packet after which there is nothing more to do *)
Lemma flat ks : forall off s, exists pre post, all_cells off ks = pre ++ post /\ prun act ks off s = crun pre s /\ forall s', crun pre s = Ok s' -> post = [] \/ fin s' = true.
Proof.
  induction ks as [|k ks IH]; intros off s; [exists [], []; split; [reflexivity|]; split; [reflexivity|]; now left|]. cbn [all_cells prun]. rewrite Act. destruct (crun (cells_of off (pk_pieces k)) s) as [s1|e] eqn:E1; cbn [bind fst snd].
  - destruct (fin s1) eqn:F.
    + exists (cells_of off (pk_pieces k)), (all_cells (off + lenN (pk_bytes k)) ks). split; [reflexivity|]. split; [now rewrite E1|]. intros s' E. rewrite E1 in E. apply ok_inj in E. subst s'. now right.
    + destruct (IH (off + lenN (pk_bytes k)) s1) as (pre & post & A & B & C). exists (cells_of off (pk_pieces k) ++ pre), post. split; [now rewrite A, <- app_assoc|]. rewrite crun_app, E1. cbn [bind]. now split.
  - exists (cells_of off (pk_pieces k)), (all_cells (off + lenN (pk_bytes k)) ks). split; [reflexivity|]. split; [now rewrite E1|]. intros s' E. congruence.
Qed.
End Flat.
Definition cstream (n : N) (cs : list cell) : Prop := exists c, In c cs /\ fst (snd c) = n.
Lemma cdata_app n a b : cell_data n (a ++ b) = cell_data n a ++ cell_data n b. Proof. unfold cell_data. now rewrite map_app, concat_app. Qed.
Definition cpiece (n : N) (c : cell) : bytes := if fst (snd c) =? n then snd (snd c) else [].
Lemma cdata_cons n c l : cell_data n (c :: l) = cpiece n c ++ cell_data n l. Proof. reflexivity. Qed.
Lemma cdata_snoc n l c : cell_data n (l ++ [c]) = cell_data n l ++ cpiece n c. Proof. rewrite cdata_app. unfold cell_data at 2. cbn [map concat]. now rewrite app_nil_r. Qed.
Lemma cells_stream l : forall o c, In c (cells_of o l) -> has_stream (fst (snd c)) l /\ o <= fst c /\ fst c + lenN (snd (snd c)) <= o + heads l + datas l.
Proof.
  induction l as [|p l IH]; intros o c H; [destruct H|]. rewrite heads_cons, datas_cons. destruct H as [<-|H].
  - cbn [fst snd]. split; [exists p; split; [now left|reflexivity]|lia].
  - destruct (IH _ c H) as (A & B & C). split; [apply (has_app _ [p] l); now right|lia].
Qed.
Lemma all_stream ks : forall o c, In c (all_cells o ks) -> has_stream (fst (snd c)) (flat_map pk_pieces ks) /\ o <= fst c /\ fst c + lenN (snd (snd c)) <= o + lenN (packets_bytes ks).
Proof.
  induction ks as [|k ks IH]; intros o c H; [destruct H|]. cbn [all_cells flat_map] in *. rewrite packets_cons, lenN_app, pk_bytes_len. apply in_app_or in H as [H|H].
  - apply cells_stream in H as (A & B & C). split; [apply has_app; now left|lia].
  - apply IH in H as (A & B & C). rewrite pk_bytes_len in *. split; [apply has_app; now right|lia].
Qed.

(** ** One payload *)
Definition fdata (e : bytes) (at_ : N) (t : track) (check : bytes) : track * bytes :=
  let sig := td_signature (t_td t) in
  let len := td_length (t_td t) in
  if (t_offset t =? 0)%Z || (lenN check <? lenN sig) then
    let '(t, check) :=
      if (0 <? lenN check) && (lenN check <? lenN sig) then
        let more := check ++ takeN (N.min (lenN sig) (lenN e + lenN check) - lenN check) e in
        if starts_with Byte.eqb more sig then (t, more) else (located t 0 0, [])
      else (t, check) in
    match check with
    | [] =>
      match find_start sig e 0 with
      | Some (pos, check) => (located t (Z.of_N (at_ + pos)) (N.min len (lenN e - pos)), check)
      | None => (t, check)
      end
    | _ => (located t (t_offset t) (N.min (len - t_match t) (lenN e)), check)
    end
  else if t_match t <? len then (located t (t_offset t) (t_match t + N.min (len - t_match t) (lenN e)), check)
  else (t, check).
Lemma fdata_is p at_ t check : td_signature (t_td t) <> [] -> find_payload t check (ypay false p) at_ = Ok (fdata (p_data p) at_ t check).
Proof.
  intros Ns. unfold find_payload, fdata. cbn [ypay y_len y_data]. rewrite N2Z.id. cbv zeta.
  destruct ((t_offset t =? 0)%Z || (lenN check <? lenN (td_signature (t_td t)))); [|destruct (t_match t <? td_length (t_td t)); reflexivity].
  assert (K : forall t check, td_signature (t_td t) <> [] ->
     match check with
     | [] => match td_signature (t_td t) with [] => Err IndexError | _ :: _ => match find_start (td_signature (t_td t)) (p_data p) 0 with Some (pos, check) => @Ok (track * bytes) (located t (Z.of_N (at_ + pos)) (N.min (td_length (t_td t)) (lenN (p_data p) - pos)), check) | None => Ok (t, check) end end
     | _ :: _ => Ok (located t (t_offset t) (N.min (td_length (t_td t) - t_match t) (lenN (p_data p))), check) end
     = Ok (match check with [] => match find_start (td_signature (t_td t)) (p_data p) 0 with Some (pos, check) => (located t (Z.of_N (at_ + pos)) (N.min (td_length (t_td t)) (lenN (p_data p) - pos)), check) | None => (t, check) end
           | _ :: _ => (located t (t_offset t) (N.min (td_length (t_td t) - t_match t) (lenN (p_data p))), check) end)).
  { intros t0 [|x c] N0; [|reflexivity]. destruct (find_start (td_signature (t_td t0)) (p_data p) 0) as [(pos, c)|]; (destruct (td_signature (t_td t0)); [contradiction|reflexivity]). }
  destruct ((0 <? lenN check) && (lenN check <? lenN (td_signature (t_td t)))); [|apply (K t check Ns)].
  destruct (starts_with Byte.eqb _ (td_signature (t_td t))); [apply (K t _ Ns)|apply (K (located t 0 0) [] Ns)].
Qed.
Lemma fdata_keeps e at_ t check : t_td (fst (fdata e at_ t check)) = t_td t /\ t_file (fst (fdata e at_ t check)) = t_file t.
Proof.
  unfold fdata. cbv zeta. destruct ((t_offset t =? 0)%Z || (lenN check <? lenN (td_signature (t_td t)))); [|destruct (t_match t <? td_length (t_td t)); now split].
  assert (K : forall t check, let x := match check with [] => match find_start (td_signature (t_td t)) e 0 with Some (pos, check) => (located t (Z.of_N (at_ + pos)) (N.min (td_length (t_td t)) (lenN e - pos)), check) | None => (t, check) end
           | _ :: _ => (located t (t_offset t) (N.min (td_length (t_td t) - t_match t) (lenN e)), check) end in t_td (fst x) = t_td t /\ t_file (fst x) = t_file t).
  { intros t0 [|x c]; [|now split]. destruct (find_start _ e 0) as [(p, c)|]; now split. }
  destruct ((0 <? lenN check) && (lenN check <? lenN (td_signature (t_td t)))); [|apply (K t check)]. destruct (starts_with Byte.eqb _ (td_signature (t_td t))); [apply (K t _)|apply (K (located t 0 0) [])].
Qed.

(** ** One track *)
Section One.
Variables (n : N) (d : bytes) (ms : list cell) (o p0 : N) (d1 d2 : bytes).
Variables (pre post : list cell).
Hypothesis Ems : ms = pre ++ (p0, (n, d1 ++ d2)) :: post.
Hypothesis N2 : d2 <> [].
Hypothesis Eo : o = p0 + lenN d1.
Hypothesis Po : o <> 0.
Hypothesis St : starts d (d2 ++ cell_data n post).
Hypothesis First : forall a b, cell_data n pre ++ d1 = a ++ b -> b <> [] -> ~ starts (takeN (lenN (takeN 256 d)) (b ++ d2)) (takeN 256 d).
Hypothesis Nd : d <> [].
Let sig := takeN 256 d.
Definition is_td (t : track) : Prop := td_signature (t_td t) = sig /\ td_length (t_td t) = lenN d.
Definition waiting (p : list cell) (t : track) (check : bytes) : Prop :=
  (exists q, pre = p ++ q) /\ t_match t < lenN d /\ (check = [] \/ exists a b, cell_data n p = a ++ b /\ b <> [] /\ check = takeN (lenN sig) b /\ starts check sig).
Definition found (p : list cell) (t : track) (check : bytes) : Prop :=
  t_offset t = Z.of_N o /\ exists q r, p = pre ++ (p0, (n, d1 ++ d2)) :: q /\ post = q ++ r /\ check = takeN (lenN sig) (d2 ++ cell_data n q).
Lemma sig_len : 0 < lenN sig /\ lenN sig <= lenN d.
Proof. unfold sig. rewrite lenN_takeN. destruct d; [contradiction|]. rewrite lenN_cons. lia. Qed.
Lemma sig_take : takeN (lenN sig) d = sig.
Proof. unfold sig. rewrite lenN_takeN. destruct (N.min_spec 256 (lenN d)) as [(L & ->)|(L & ->)]; [reflexivity|]. rewrite !takeN_all by lia. reflexivity. Qed.
Lemma begins q r : post = q ++ r -> starts (takeN (lenN sig) (d2 ++ cell_data n q)) sig.
Proof.
  intros E. rewrite <- sig_take at 2. apply (starts_takes (lenN sig) d (d2 ++ cell_data n post)); [exact St|apply sig_len|]. exists (cell_data n r). rewrite E, cdata_app. now rewrite app_assoc.
Qed.
Lemma partial_short a b c : cell_data n pre ++ d1 = a ++ b ++ c -> b <> [] -> starts (takeN (lenN sig) b) sig -> lenN b < lenN sig.
Proof.
  intros E Nb S. destruct (N.ltb_spec (lenN b) (lenN sig)) as [L|L]; [exact L|exfalso]. apply (First a (b ++ c) E); [destruct b; [contradiction|discriminate]|]. fold sig. rewrite <- app_assoc. rewrite takeN_app_le by exact L. exact S.
Qed.
Lemma data_split p q : pre = p ++ q -> cell_data n pre ++ d1 = cell_data n p ++ cell_data n q ++ d1.
Proof. intros ->. now rewrite cdata_app, <- app_assoc. Qed.
Lemma waiting_other p c t check r : ms = p ++ c :: r -> fst (snd c) <> n -> waiting p t check -> waiting (p ++ [c]) t check.
Proof.
  intros E Nc ((q & Eq) & L & C). assert (P : cpiece n c = []) by (unfold cpiece; now replace (fst (snd c) =? n) with false by (symmetry; now apply N.eqb_neq)). split; [|split; [exact L|]].
  - destruct q as [|j q]; [exfalso|exists q].
    + rewrite app_nil_r in Eq. rewrite Ems, Eq in E. apply app_inv_head in E. injection E as E _. subst c. now apply Nc.
    + rewrite Ems, Eq, <- !app_assoc in E. apply app_inv_head in E. injection E as -> _. now rewrite <- app_assoc.
  - destruct C as [C|(a & b & D & C)]; [now left|right]. exists a, b. split; [|exact C]. rewrite cdata_snoc, P. now rewrite app_nil_r.
Qed.
Lemma found_next p c t check r t' check' : ms = p ++ c :: r -> found p t check -> t_offset t' = Z.of_N o -> (forall q, p = pre ++ (p0, (n, d1 ++ d2)) :: q -> check = takeN (lenN sig) (d2 ++ cell_data n q) -> check' = takeN (lenN sig) (d2 ++ cell_data n q ++ cpiece n c)) -> found (p ++ [c]) t' check'.
Proof.
  intros E (Ho & q & s & Ep & Es & Ec) Ho' Hc. split; [exact Ho'|]. assert (Er : s = c :: r).
  { rewrite Ems, Ep, <- app_assoc in E. apply app_inv_head in E. cbn [app] in E. injection E as E. rewrite Es in E. now apply app_inv_head in E. }
  exists (q ++ [c]), r. split; [rewrite Ep, <- app_assoc; reflexivity|]. split; [rewrite Es, Er, <- app_assoc; reflexivity|]. rewrite cdata_snoc. now apply Hc.
Qed.
Lemma found_other p c t check r : ms = p ++ c :: r -> fst (snd c) <> n -> found p t check -> found (p ++ [c]) t check.
Proof.
  intros E Nc F. apply (found_next p c t check r t check E F (proj1 F)). intros q Eq Ec. unfold cpiece. replace (fst (snd c) =? n) with false by (symmetry; now apply N.eqb_neq). now rewrite app_nil_r.
Qed.
Lemma found_own p at_ e t check r : ms = p ++ (at_, (n, e)) :: r -> is_td t -> found p t check -> let x := fdata e at_ t check in found (p ++ [(at_, (n, e))]) (fst x) (snd x).
Proof.
  intros E (T1 & T2) F x. destruct sig_len as (S1 & S2). assert (Pe : cpiece n (at_, (n, e)) = e) by (unfold cpiece; cbn [fst snd]; now rewrite N.eqb_refl).
  pose proof F as (Ho & q & s & Ep & Es & Ec). assert (Er : s = (at_, (n, e)) :: r).
  { rewrite Ems, Ep, <- app_assoc in E. apply app_inv_head in E. cbn [app] in E. injection E as E. rewrite Es in E. now apply app_inv_head in E. }
  assert (Fin : forall t' c', t_offset t' = Z.of_N o -> c' = takeN (lenN sig) (d2 ++ cell_data n q ++ e) -> found (p ++ [(at_, (n, e))]) t' c').
  { intros t' c' Ho' Hc. apply (found_next p _ t check r t' c' E F Ho'). intros q' Eq' _. rewrite Ep in Eq'. apply app_inv_head in Eq'. injection Eq' as <-. now rewrite Pe. }
  unfold x, fdata. rewrite T1, T2. replace (t_offset t =? 0)%Z with false by (rewrite Ho; lia). cbn [orb]. destruct (N.ltb_spec (lenN check) (lenN sig)) as [Lc|Lc].
  - assert (Eb : check = d2 ++ cell_data n q) by (rewrite Ec in Lc |- *; now apply short_take). replace (0 <? lenN check) with true by (rewrite Eb; destruct d2; [contradiction|cbn [app]; rewrite lenN_cons; lia]). cbn [andb].
    rewrite more_is by lia. replace (takeN (lenN sig) (check ++ e)) with (takeN (lenN sig) (d2 ++ cell_data n q ++ e)) by (now rewrite Eb, <- app_assoc).
    replace (starts_with Byte.eqb (takeN (lenN sig) (d2 ++ cell_data n q ++ e)) sig) with true.
    + destruct (takeN (lenN sig) (d2 ++ cell_data n q ++ e)) as [|y z] eqn:Et; [|apply Fin; [exact Ho|reflexivity]].
      exfalso. apply (f_equal (@lenN byte)) in Et. rewrite lenN_takeN, lenN_app in Et. destruct d2; [contradiction|]. rewrite lenN_cons in Et. cbn [lenN] in Et. lia.
    + symmetry. apply starts_with_is. pose proof (begins (q ++ [(at_, (n, e))]) r) as B. rewrite cdata_snoc, Pe in B. apply B. rewrite Es, Er, <- app_assoc. reflexivity.
  - assert (Ef : check = takeN (lenN sig) (d2 ++ cell_data n q ++ e)).
    { rewrite Ec in *. rewrite app_assoc. symmetry. apply takeN_app_le. rewrite lenN_takeN in Lc. lia. }
    destruct (t_match t <? lenN d); (apply Fin; [exact Ho|exact Ef]).
Qed.
Lemma waiting_own p at_ e t check r : ms = p ++ (at_, (n, e)) :: r -> is_td t -> waiting p t check -> let x := fdata e at_ t check in waiting (p ++ [(at_, (n, e))]) (fst x) (snd x) \/ found (p ++ [(at_, (n, e))]) (fst x) (snd x).
Proof.
  intros E (T1 & T2) ((q & Eq) & L & C). destruct sig_len as (S1 & S2). cbv zeta. unfold fdata. rewrite T1, T2.
  assert (Pe : cpiece n (at_, (n, e)) = e) by (unfold cpiece; cbn [fst snd]; now rewrite N.eqb_refl). assert (De : cell_data n (p ++ [(at_, (n, e))]) = cell_data n p ++ e) by (now rewrite cdata_snoc, Pe).
  assert (Lc : lenN check < lenN sig).
  { destruct C as [->|(a & b & D & Nb & -> & Sc)]; [cbn [lenN]; lia|]. rewrite lenN_takeN. assert (lenN b < lenN sig); [|lia]. apply (partial_short a b (cell_data n q ++ d1)); [|exact Nb|exact Sc]. rewrite (data_split p q Eq), D, <- !app_assoc. reflexivity. }
  replace ((t_offset t =? 0)%Z || (lenN check <? lenN sig)) with true by (symmetry; apply orb_true_iff; right; lia). replace (lenN check <? lenN sig) with true by lia. rewrite andb_true_r.
  assert (K : forall t', t_match t' < lenN d ->
    let x := match find_start sig e 0 with Some (pos, c) => (located t' (Z.of_N (at_ + pos)) (N.min (lenN d) (lenN e - pos)), c) | None => (t', [] : bytes) end in waiting (p ++ [(at_, (n, e))]) (fst x) (snd x) \/ found (p ++ [(at_, (n, e))]) (fst x) (snd x)).
  { intros t' L'. destruct q as [|j q].
    - right. rewrite app_nil_r in Eq. rewrite Ems, <- Eq in E. apply app_inv_head in E. injection E as E1 E2 E3. subst at_ e r.
      rewrite (find_start_at sig d1 d2); [|intros a b Ed Nb; apply (First (cell_data n p ++ a) b); [rewrite Eq, Ed, <- app_assoc; reflexivity|exact Nb]|exact N2|].
      2: { pose proof (begins [] post eq_refl) as B. cbn [cell_data map concat] in B. now rewrite app_nil_r in B. }
      cbn [fst snd]. split; [cbn [located t_offset]; rewrite Eo; f_equal; lia|]. exists [], post. split; [now rewrite Eq|]. split; [reflexivity|]. cbn [cell_data map concat]. now rewrite app_nil_r.
    - left. assert (Hj : j = (at_, (n, e))) by (rewrite Ems, Eq, <- !app_assoc in E; apply app_inv_head in E; now injection E). subst j.
      assert (Hq : pre = (p ++ [(at_, (n, e))]) ++ q) by (now rewrite <- app_assoc).
      destruct (find_start sig e 0) as [(pos, c)|] eqn:Fs; cbn [fst snd].
      + apply find_start_some in Fs as (a & b & Ee & Nb & -> & Ec & Sc). split; [now exists q|].
        assert (Hs : cell_data n pre ++ d1 = (cell_data n p ++ a) ++ b ++ cell_data n q ++ d1) by (rewrite (data_split _ _ Hq), De, Ee, <- !app_assoc; reflexivity). split.
        * cbn [located t_match]. rewrite Ec in Sc. pose proof (partial_short _ _ _ Hs Nb Sc). rewrite Ee, lenN_app. lia.
        * right. exists (cell_data n p ++ a), b. split; [rewrite De, Ee, <- app_assoc; reflexivity|]. split; [exact Nb|]. now split.
      + split; [now exists q|]. split; [exact L'|now left]. }
  destruct C as [->|(a & b & D & Nb & Ec & Sc)].
  - cbn [lenN N.ltb N.compare]. exact (K t L).
  - assert (Eb : check = b) by (rewrite Ec in Lc |- *; now apply short_take). subst b. replace (0 <? lenN check) with true by (destruct check; [contradiction|rewrite lenN_cons; lia]).
    rewrite more_is by lia. destruct (starts_with Byte.eqb (takeN (lenN sig) (check ++ e)) sig) eqn:Sw; [|exact (K (located t 0 0) ltac:(cbn [located t_match]; lia))].
    apply starts_with_is in Sw. left.
    assert (Nt : takeN (lenN sig) (check ++ e) <> []) by (intros X; apply (f_equal (@lenN byte)) in X; rewrite lenN_takeN, lenN_app in X; destruct check; [contradiction|]; rewrite lenN_cons in X; cbn [lenN] in X; lia).
    match goal with |- waiting _ (fst ?x) _ => replace x with (located t (t_offset t) (N.min (lenN d - t_match t) (lenN e)), takeN (lenN sig) (check ++ e)) by (destruct (takeN (lenN sig) (check ++ e)); [contradiction|reflexivity]) end.
    cbn [fst snd]. destruct q as [|j q].
    + exfalso. rewrite app_nil_r in Eq. rewrite Ems, <- Eq in E. apply app_inv_head in E. injection E as E1 E2 E3. subst at_ e r. apply (First a (check ++ d1)); [rewrite Eq, D, <- app_assoc; reflexivity|destruct check; [contradiction|discriminate]|]. rewrite <- app_assoc. exact Sw.
    + assert (Hj : j = (at_, (n, e))) by (rewrite Ems, Eq, <- !app_assoc in E; apply app_inv_head in E; now injection E). subst j.
      assert (Hq : pre = (p ++ [(at_, (n, e))]) ++ q) by (now rewrite <- app_assoc).
      split; [now exists q|]. split.
      * assert (Sh : lenN (check ++ e) < lenN sig) by (apply (partial_short a (check ++ e) (cell_data n q ++ d1)); [rewrite (data_split _ _ Hq), De, D, <- !app_assoc; reflexivity|destruct check; [contradiction|discriminate]|exact Sw]). cbn [located t_match]. rewrite lenN_app in Sh. lia.
      * right. exists a, (check ++ e). split; [rewrite De, D, <- app_assoc; reflexivity|]. split; [destruct check; [contradiction|discriminate]|]. now split.
Qed.
Lemma not_waiting t check : ~ waiting ms t check.
Proof. intros ((q & Eq) & _). apply (f_equal (@length cell)) in Eq. rewrite Ems, !app_length in Eq. cbn [length] in Eq. clear -Eq. lia. Qed.
End One.

(** ** All tracks *)
Definition fcell (s : fstate) (c : cell) : result fstate :=
  let '(ts, checks, done) := s in
  let n := fst (snd c) in
  let ts := with_new n ts in
  do t <- get_track n ts;
  do r <- find_payload t (checks n) (mkY n 0 [] (Z.of_N (lenN (snd (snd c)))) (snd (snd c))) (fst c);
  let ts := set_track n (fst r) ts in
  Ok (ts, upd checks n (snd r), if counting t (checks n) then all_found ts else done).
Lemma find_act s off k : find_packet s off (pk_bytes k) (pk_parsed false k) = do s <- crun fcell (cells_of off (pk_pieces k)) s; Ok (s, fs_done s).
Proof.
  unfold find_packet. cbn [pk_parsed k_pays]. f_equal. revert off s. induction (pk_pieces k) as [|p l IH]; intros off s; [reflexivity|]. cbn [map find_pays cells_of crun ypay y_stream y_hsize y_len]. destruct s as ((ts, checks), done). unfold fcell at 1. cbn [fst snd].
  destruct (get_track (p_stream p) (with_new (p_stream p) ts)) as [t|e]; [|reflexivity]. cbn [bind]. change (find_payload t (checks (p_stream p)) (mkY (p_stream p) 0 [] (Z.of_N (lenN (p_data p))) (p_data p)) (off + lenN (p_head p))) with (find_payload t (checks (p_stream p)) (ypay false p) (off + lenN (p_head p))).
  cbn [ypay]. destruct (find_payload _ _ _ _) as [r|e]; [|reflexivity]. cbn [bind]. rewrite IH. now rewrite N2Z.id.
Qed.
Section All.
Variables (pcs : list piece) (ms : list cell) (at_ : N -> N) (ns : list N) (td0 : N -> track_data).
Hypothesis Nd : NoDup ns.
(** the tracks with data *)
Definition full (n : N) : Prop := data_of n pcs <> [].
Hypothesis Full : forall n, full n -> In n ns /\ td_signature (td0 n) = takeN 256 (data_of n pcs) /\ td_length (td0 n) = lenN (data_of n pcs).
Hypothesis Pos : forall c, In c ms -> fst c <> 0 /\ full (fst (snd c)).
Definition held_at (n p0 : N) (d1 d2 : bytes) (pre post : list cell) : Prop :=
  ms = pre ++ (p0, (n, d1 ++ d2)) :: post /\ d2 <> [] /\ at_ n = p0 + lenN d1 /\ starts (data_of n pcs) (d2 ++ cell_data n post) /\
  forall a b, cell_data n pre ++ d1 = a ++ b -> b <> [] -> ~ starts (takeN (lenN (takeN 256 (data_of n pcs))) (b ++ d2)) (takeN 256 (data_of n pcs)).
Definition st (found_only : bool) (n : N) (p : list cell) (t : track) (check : bytes) : Prop :=
  exists p0 d1 d2 pre post, held_at n p0 d1 d2 pre post /\ ((found_only = false /\ waiting n (data_of n pcs) pre p t check) \/ found n (data_of n pcs) (at_ n) p0 d1 d2 pre post p t check).
Definition gs (fo : bool) (p : list cell) (g : N -> track) (checks : N -> bytes) : Prop :=
  forall n, t_file (g n) = None /\ t_td (g n) = td0 n /\ (full n -> st fo n p (g n) (checks n)).
Lemma at_pos n p0 d1 d2 pre post : held_at n p0 d1 d2 pre post -> at_ n <> 0.
Proof. intros (E & _ & Ea & _). destruct (Pos (p0, (n, d1 ++ d2))) as (P & _); [rewrite E; apply in_elt|]. cbn [fst] in P. lia. Qed.
Lemma st_other fo n p c r t check : ms = p ++ c :: r -> fst (snd c) <> n -> st fo n p t check -> st fo n (p ++ [c]) t check.
Proof.
  intros E Nc (p0 & d1 & d2 & pre & post & H & W). exists p0, d1, d2, pre, post. split; [exact H|]. destruct H as (A & B & C & D & F). destruct W as [(Ef & W)|W].
  - left. split; [exact Ef|]. exact (waiting_other n _ ms p0 d1 d2 pre post A p c t check r E Nc W).
  - right. exact (found_other n _ ms (at_ n) p0 d1 d2 pre post A p c t check r E Nc W).
Qed.
Lemma st_own fo n p pl e r t check : full n -> t_td t = td0 n -> ms = p ++ (pl, (n, e)) :: r -> st fo n p t check -> let x := fdata e pl t check in st fo n (p ++ [(pl, (n, e))]) (fst x) (snd x).
Proof.
  intros Fu T E (p0 & d1 & d2 & pre & post & H & W) x. pose proof (at_pos n _ _ _ _ _ H) as Pa. exists p0, d1, d2, pre, post. split; [exact H|]. destruct H as (A & B & C & D & F).
  assert (Td : is_td (data_of n pcs) t) by (unfold is_td; rewrite T; apply Full, Fu). destruct W as [(Ef & W)|W].
  - destruct (waiting_own n _ ms (at_ n) p0 d1 d2 pre post A B C Pa D F Fu p pl e t check r E Td W) as [X|X]; [now left|now right].
  - right. exact (found_own n _ ms (at_ n) p0 d1 d2 pre post A B C Pa D F Fu p pl e t check r E Td W).
Qed.
Lemma find_cells r : forall p g checks done, ms = p ++ r -> gs done p g checks ->
  forall r1 r2, r = r1 ++ r2 -> exists g' c' done', crun fcell r1 (table g ns : tracks, checks, done) = Ok (table g' ns : tracks, c', done') /\ gs done' (p ++ r1) g' c' /\ forall n, ~ full n -> g' n = g n.
Proof.
  induction r as [|c r IH]; intros p g checks done E G r1 r2 Er.
  { symmetry in Er. apply app_eq_nil in Er as (-> & ->). exists g, checks, done. split; [reflexivity|]. rewrite app_nil_r. now split. }
  destruct r1 as [|c1 r1]; [exists g, checks, done; split; [reflexivity|]; rewrite app_nil_r; now split|]. cbn [app] in Er. injection Er as <- Er. cbn [crun]. destruct c as (pl & n & e).
  destruct (Pos (pl, (n, e))) as (_ & Fu); [rewrite E; apply in_elt|]. cbn [fst snd] in Fu. destruct (Full n Fu) as (Hn & Ts & Tl). unfold fcell at 1. cbn [fst snd].
  assert (W : with_new n (table g ns) = table g ns) by now apply AviSrs.with_new_in. rewrite W, get_table by exact Hn. cbn [bind].
  change (mkY n 0 [] (Z.of_N (lenN e)) e) with (mkY n 0 [] (Z.of_N (lenN e)) (snd (n, e))). assert (Sg : td_signature (t_td (g n)) <> []).
  { destruct (G n) as (_ & -> & _). rewrite Ts. unfold full in Fu. intros X. apply (f_equal lenN) in X. rewrite lenN_takeN in X. cbn [lenN] in X. destruct (data_of n pcs); [contradiction|]. rewrite lenN_cons in X. lia. }
  pose proof (fdata_is (n, [], e) pl (g n) (checks n) Sg) as Fd. unfold ypay in Fd. cbn [p_stream p_head p_data fst snd lenN] in Fd. unfold p_stream, p_data, p_head in Fd. cbn [fst snd] in Fd. change (lenN (@nil byte)) with 0 in Fd. cbn [snd]. rewrite Fd. clear Fd. cbn [bind].
  set (x := fdata e pl (g n) (checks n)). rewrite set_table by assumption. set (g1 := fun k => if k =? n then fst x else g k). set (done1 := if counting (g n) (checks n) then all_found (table g1 ns) else done).
  assert (E' : ms = (p ++ [(pl, (n, e))]) ++ r) by (rewrite <- app_assoc; exact E).
  assert (G1 : forall fo, gs fo p g checks -> gs fo (p ++ [(pl, (n, e))]) g1 (upd checks n (snd x))).
  { intros fo G0 k. unfold g1, upd. destruct (G0 k) as (H1 & H2 & H3). destruct (N.eqb_spec k n) as [->|Nk].
    - destruct (fdata_keeps e pl (g n) (checks n)) as (K1 & K2). fold x in K1, K2. split; [congruence|]. split; [congruence|]. intros _. apply (st_own fo n p pl e r); [exact Fu|exact H2|exact E|now apply H3].
    - split; [exact H1|]. split; [exact H2|]. intros Hk. apply (st_other fo k p (pl, (n, e)) r); [exact E|cbn [fst snd]; congruence|now apply H3]. }
  assert (G2 : gs done1 (p ++ [(pl, (n, e))]) g1 (upd checks n (snd x))).
  { unfold done1. destruct (counting (g n) (checks n)); [|now apply G1]. destruct (all_found (table g1 ns)) eqn:Af.
    - assert (G0 : gs false p g checks) by (intros k; destruct (G k) as (H1 & H2 & H3); split; [exact H1|]; split; [exact H2|]; intros Hk; destruct (H3 Hk) as (p0 & a & b & c & d & Hh & [(_ & X)|X]); exists p0, a, b, c, d; (split; [exact Hh|]); [left; now split|now right]).
      specialize (G1 false G0). intros k. destruct (G1 k) as (H1 & H2 & H3). split; [exact H1|]. split; [exact H2|]. intros Hk. destruct (H3 Hk) as (p0 & a & b & c & d & Hh & [(_ & X)|X]); exists p0, a, b, c, d; (split; [exact Hh|]); right; [exfalso|exact X].
      destruct X as (_ & L & _). destruct (Full k Hk) as (Hkn & _ & Tk). pose proof (found_table g1 ns Af k Hkn) as Lk. rewrite H2, Tk in Lk. lia.
    - apply G1. intros k. destruct (G k) as (H1 & H2 & H3). split; [exact H1|]. split; [exact H2|]. intros Hk. destruct (H3 Hk) as (p0 & a & b & c & d & Hh & [(_ & X)|X]); exists p0, a, b, c, d; (split; [exact Hh|]); [left; now split|now right]. }
  destruct (IH _ g1 (upd checks n (snd x)) done1 E' G2 r1 r2 Er) as (g' & c' & done' & R & G' & K). exists g', c', done'. split; [exact R|]. split; [now rewrite <- app_assoc in G'|]. intros k Hk. rewrite (K k Hk). unfold g1. destruct (N.eqb_spec k n) as [->|]; [contradiction|reflexivity].
Qed.
End All.
