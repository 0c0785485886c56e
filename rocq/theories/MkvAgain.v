(** MkvAgain: a sample is rebuilt if one of the combinations that are tried is right. *)
From Verif Require Import Base BaseFacts Crc CrcFacts SrsRec SrsRecSpec SrsRecFacts Srs SrrFacts Ebml EbmlSpec EbmlFacts Mkv StrmSpec Mp3Spec MkvSpec MkvRead MkvSrs MkvLoad MkvOut MkvFind MkvSearch MkvExtract MkvMain MkvRetry MkvRetrySpec MkvRetryFacts.

(** ** Rebuilding, whatever is in the files *)
Lemma drop_taken (n : N) (d : bytes) : dropN (lenN (takeN n d)) d = dropN n d.
Proof. rewrite lenN_takeN. destruct (N.le_gt_cases n (lenN d)) as [H|H]; [now rewrite N.min_l by exact H|]. rewrite N.min_r by lia. rewrite !dropN_all by lia. reflexivity. Qed.
Lemma rebuild_total its : forall pos s,
  (forall b, In (Blk b) its -> exists d, get N.eqb (k_no b) (r_files s) = Ok (Some d)) ->
  (forall nm d, In (nm, d) (attached_files (r_cur s) its) -> exists k, nm = Some k /\ get beqb k (r_atts s) = Ok (Some d)) -> NoDup (map fst (attached_files (r_cur s) its)) ->
  exists s', irun true never rebuild' its pos s = Ok s' /\ forall k d, get N.eqb k (r_files s) = Ok (Some d) -> get N.eqb k (r_files s') = Ok (Some (dropN (lenN (data_of k its)) d)).
Proof.
  induction its as [|i its IH]; intros pos s Hb Ha Nd; cbn [irun]; [exists s; split; [reflexivity|]; intros k d G; now rewrite dropN_0|]. change (never s) with false. cbv iota.
  assert (G : forall s1, rebuild' s pos i = Ok (s1, true) -> (forall k d, get N.eqb k (r_files s) = Ok (Some d) -> get N.eqb k (r_files s1) = Ok (Some (dropN (lenN (concat (frames_of k i))) d))) ->
    (forall nm d, In (nm, d) (attached_files (r_cur s1) its) -> exists k, nm = Some k /\ get beqb k (r_atts s1) = Ok (Some d)) -> NoDup (map fst (attached_files (r_cur s1) its)) ->
    exists s', (do x <- rebuild' s pos i; if snd x then irun true never rebuild' its (pos + lenN (enc true i)) (fst x) else Ok (fst x)) = Ok s' /\ forall k d, get N.eqb k (r_files s) = Ok (Some d) -> get N.eqb k (r_files s') = Ok (Some (dropN (lenN (data_of k (i :: its))) d))).
  { intros s1 E1 H1 H2 H3. rewrite E1. cbn [bind fst snd]. destruct (IH (pos + lenN (enc true i)) s1) as (s' & E' & O'); [|exact H2|exact H3|].
    - intros b X. destruct (Hb b (or_intror X)) as (d & Ed). eexists. exact (H1 _ _ Ed).
    - exists s'. split; [exact E'|]. intros k d Gk. apply H1 in Gk. apply O' in Gk. rewrite Gk, data_cons, lenN_app, dropN_dropN. do 3 f_equal. lia. }
  assert (Same : forall k (d : bytes), frames_of k i = [] -> dropN (lenN (concat (frames_of k i))) d = d) by (intros k d ->; apply dropN_0).
  destruct i as [id w n|id w d|b].
  - apply (G (mkR (r_out s ++ header id w n) (r_files s) (r_atts s) (r_cur s))); try reflexivity; try assumption. intros k d Gk. rewrite Same by reflexivity. exact Gk.
  - cbn [rebuild'] in *. cbn [attached_files] in Ha, Nd. destruct (beqb id RESAMPLE) eqn:C0.
    + apply beqb_eq in C0. subst id. change (beqb RESAMPLE file_name) with false in *. change (beqb RESAMPLE file_contents) with false in *. cbv iota in *. apply (G s); try reflexivity; try assumption. intros k d' Gk. rewrite Same by reflexivity. exact Gk.
    + destruct (beqb id file_contents) eqn:C1.
      * assert (C2 : beqb id file_name = false) by (apply beqb_eq in C1; now subst id). rewrite C2 in *. destruct (Ha (r_cur s) d (or_introl eq_refl)) as (k & Ek & Ga). rewrite Ek in *. rewrite Ga in *. cbn [bind] in *. inversion Nd as [|? ? Nk Nd']; subst.
        eapply G; [reflexivity|intros q d' Gk; rewrite Same by reflexivity; exact Gk| |exact Nd']. intros nm d' X. cbn [r_cur] in X. destruct (Ha nm d' (or_intror X)) as (k' & -> & Gk). exists k'. split; [reflexivity|]. cbn [r_atts]. rewrite (get_put_other beqb beqb_eq); [exact Gk|]. intros ->. apply Nk. now apply (in_map fst) in X.
      * eapply G; [reflexivity|intros k d' Gk; rewrite Same by reflexivity; exact Gk| |]; cbn [r_cur r_atts]; destruct (beqb id file_name); assumption.
  - cbn [rebuild'] in *. destruct (Hb b (or_introl eq_refl)) as (d & Ed). rewrite Ed in *. cbn [bind] in *. eapply G; [reflexivity| |exact Ha|exact Nd]. intros k d' Gk. cbn [r_files frames_of]. destruct (N.eqb_spec (k_no b) k) as [<-|Nk].
    + rewrite (get_put_same N.eqb N.eqb_eq). rewrite Ed in Gk. apply ok_inj in Gk. apply some_inj in Gk. subst d'. now rewrite drop_taken.
    + rewrite (get_put_other N.eqb N.eqb_eq) by congruence. cbn [concat lenN]. now rewrite dropN_0.
Qed.
Definition whole_file (rest : N -> bytes) (k : N) (t : mtrack) : option bytes := option_map (fun d => d ++ rest k) (m_file t).
Section Whole.
Variables (ps a b : list part) (w wr : nat) (size : N) (added : list item) (srs : bytes).
Hypothesis F : Forall part_ok ps.
Hypothesis Ep : ps = a ++ One (Open segment w size) :: b.
Hypothesis Ha : Forall (fun p => exists id w d, p = One (Leaf id w d)) a.
Hypothesis Ad : Forall added_leaf added.
Hypothesis V : vint_ok wr (lenN (bytes_of added)).
Hypothesis Es : srs = encs true (srs_items a w size wr added (all_items b)).
Lemma files_total flags (ts : mtracks) rest atts : has flags ATTACHMENTS_REMOVED = true ->
  (forall bl, In (Blk bl) (all_items ps) -> exists t, get N.eqb (k_no bl) ts = Ok t /\ m_file t <> None) ->
  (forall nm d, In (nm, d) (files_of (all_items ps)) -> exists k, nm = Some k /\ get beqb k atts = Ok (Some d)) -> NoDup (map fst (files_of (all_items ps))) ->
  exists v, rebuild_files flags ts rest atts srs = Ok v /\ map fst (v_tracks v) = map fst ts /\
    (forall k t, get N.eqb k ts = Ok t -> exists t', get N.eqb k (v_tracks v) = Ok t' /\ m_td t' = m_td t /\ m_offset t' = m_offset t /\ m_strip t' = m_strip t /\
       match m_file t with
       | None => m_file t' = None
       | Some d => m_file t' = Some (takeN (lenN (data_of k (all_items ps))) (d ++ rest k)) /\ v_rest v k = dropN (lenN (data_of k (all_items ps))) (d ++ rest k)
       end) /\
    ((forall bl, In (Blk bl) (all_items ps) -> exists t d, get N.eqb (k_no bl) ts = Ok t /\ m_file t = Some d /\ starts (data_of (k_no bl) (all_items ps)) (d ++ rest (k_no bl))) -> v_out v = file_of ps).
Proof using F Ep Ha Ad V Es.
  intros Hf Hb Hat Nd. destruct (seen_same ps a b w wr size added F Ep Ha) as (D & A & B). unfold rebuild_files. cbv zeta. rewrite (seen_run ps a b w wr size added srs F Ep Ha Ad V Es flags _ Hf). set (files := map _ ts).
  assert (Gf : forall k, get N.eqb k files = do t <- get N.eqb k ts; Ok (whole_file rest k t)) by (intros k; apply (get_map (whole_file rest))).
  destruct (rebuild_total (seen_items a w size wr added b) 0 (mkR [] files atts None)) as (s & Er & Rf).
  - intros bl Hi. cbn [r_files]. destruct (Hb bl (proj1 (B bl) Hi)) as (t & Gt & Ht). rewrite Gf, Gt. cbn [bind]. unfold whole_file. destruct (m_file t) as [d|]; [|now destruct Ht]. eexists. reflexivity.
  - cbn [r_cur r_atts]. rewrite A. exact Hat.
  - cbn [r_cur]. rewrite A. exact Nd.
  - rewrite Er. cbn [bind]. eexists. split; [reflexivity|]. cbn [v_tracks v_rest v_out]. split; [rewrite map_map; reflexivity|]. split.
    + intros k t Gt. eexists. split; [rewrite (get_map (fun k t => set_file (option_map (fun d => takeN (lenN d - lenN (match get N.eqb k (r_files s) with Ok (Some d) => d | _ => [] end)) d) (option_map (fun d => d ++ rest k) (m_file t))) t)), Gt; reflexivity|]. cbn [set_file m_td m_offset m_strip m_file]. split; [reflexivity|]. split; [reflexivity|]. split; [reflexivity|].
      destruct (m_file t) as [d|] eqn:Ed; [|reflexivity]. cbn [option_map]. specialize (Rf k (d ++ rest k)). cbn [r_files] in Rf. rewrite Rf by (rewrite Gf, Gt; cbn [bind]; unfold whole_file; now rewrite Ed). rewrite D. split; [|reflexivity]. f_equal. rewrite lenN_dropN. set (x := d ++ rest k). destruct (N.le_gt_cases (lenN (data_of k (all_items ps))) (lenN x)) as [L|L].
      * replace (lenN x - (lenN x - lenN (data_of k (all_items ps)))) with (lenN (data_of k (all_items ps))) by lia. reflexivity.
      * rewrite !takeN_all by lia. reflexivity.
    + intros Hs. destruct (rebuild_exact (seen_items a w size wr added b) 0 (mkR [] files atts None)) as (s' & Er' & O).
      * intros bl Hi. cbn [r_files]. destruct (Hs bl (proj1 (B bl) Hi)) as (t & d & Gt & Ed & (r & Sr)). rewrite Gf, Gt. cbn [bind]. unfold whole_file. rewrite Ed. cbn [option_map]. exists r. rewrite D. now rewrite Sr.
      * cbn [r_cur r_atts]. rewrite A. exact Hat.
      * cbn [r_cur]. rewrite A. exact Nd.
      * assert (s' = s) by congruence. subst s'. rewrite O. cbn [r_out app]. rewrite (kept_seen ps a b w wr size added F Ep Ha). unfold view. now rewrite looks_bytes.
Qed.
End Whole.

(** ** Attempts *)
Section Attempts.
Variables (ps a b : list part) (w wr : nat) (size : N) (added : list item) (srs : bytes).
Hypothesis Pok : mkv_ok ps.
Hypothesis Ep : ps = a ++ One (Open segment w size) :: b.
Hypothesis Ha : Forall (fun p => exists id w d, p = One (Leaf id w d)) a.
Hypothesis Ad : Forall added_leaf added.
Hypothesis V : vint_ok wr (lenN (bytes_of added)).
Hypothesis Es : srs = encs true (srs_items a w size wr added (all_items b)).
Variables (main : bytes) (ms : list part) (at_ : N -> N) (fd : file_data).
Hypothesis M : movie_ok main ms.
Hypothesis Im : in_movie held (all_items ps) (all_items ms) at_.
Hypothesis Fl : has (fd_flags fd) ATTACHMENTS_REMOVED = true.
Hypothesis Cf : fd_crc32 fd = crc32 (file_of ps).
Let its := all_items ps.
Definition vgood (v : vstate) : Prop :=
  ready its (v_tracks v) /\ forall n t, data_of n its <> [] -> get N.eqb n (v_tracks v) = Ok t ->
    reach (all_items ms) n (m_offset t) /\ (m_file t = None -> v_rest v n = []) /\
    (m_offset t = at_ n -> m_file t <> None -> starts (data_of n its) (before_file t ++ v_rest v n) /\ lenN (data_of n its) <= lenN (before_file t)).
Definition has_file (v : vstate) (n : N) : Prop := forall t, get N.eqb n (v_tracks v) = Ok t -> m_file t <> None.
Definition is_at (v : vstate) (n : N) : Prop := forall t, get N.eqb n (v_tracks v) = Ok t -> m_offset t = at_ n.
Lemma file_is t d : m_file t = Some d -> before_file t = d. Proof. intros E. unfold before_file. now rewrite E. Qed.
Lemma file_no t : m_file t = None -> before_file t = []. Proof. intros E. unfold before_file. now rewrite E. Qed.
Lemma pos_is ts n t : get N.eqb n ts = Ok t -> before_pos ts n = lenN (before_file t).
Proof. intros G. unfold before_pos, before_file, file_len. rewrite G. now destruct (m_file t). Qed.
Lemma made_good (v : vstate) ts ts' atts : vgood v -> ts = v_tracks v -> mkv_extract ts main = Ok (ts', atts) -> exists r, rebuild_files (fd_flags fd) ts' (over ts' v) atts srs = Ok r /\
  vgood r /\ (forall n, data_of n its <> [] -> has_file r n) /\
  (forall n t, data_of n its <> [] -> get N.eqb n (v_tracks v) = Ok t -> exists t', get N.eqb n (v_tracks r) = Ok t' /\ m_offset t' = m_offset t) /\
  ((forall n, data_of n its <> [] -> is_at v n) -> v_out r = file_of ps).
Proof using Pok Ep Ha Ad V Es M Im Fl Cf.
  intros (Rv & Gv) -> Ex. assert (Ok_ := Pok). destruct Ok_ as (F & _ & _ & _ & (Fo1 & Fo2) & _ & Bd).
  destruct (extract_again its main ms (v_tracks v) M) as (ts1 & at1 & Ex' & (Nd1 & R1 & R2) & X & Na & At); [intros n Hn; destruct (proj1 Im n Hn) as (l & C & _); now exists l|exact (proj2 Im)|exact Rv|].
  rewrite Ex in Ex'. apply ok_inj in Ex'. injection Ex' as <- <-.
  assert (Each : forall n, data_of n its <> [] -> exists t t' d, get N.eqb n (v_tracks v) = Ok t /\ get N.eqb n ts' = Ok t' /\ m_file t' = Some d /\ extracted its (all_items ms) n t t' /\
    (m_offset t = at_ n -> starts (data_of n its) (d ++ over ts' v n))).
  { intros n Hn. destruct (X n Hn) as (t & t' & Gt & Gt' & Xt). destruct (Gv n t Hn Gt) as (Rc & G0 & Ga). assert (Xt0 := Xt). destruct Xt as (X1 & X2 & X3 & X4 & X5 & X6 & X7 & X8 & _). specialize (X5 (or_intror Rc)). destruct (m_file t') as [d|] eqn:Ed; [|now destruct X5]. exists t, t', d. split; [exact Gt|]. split; [exact Gt'|]. split; [exact Ed|]. split; [exact Xt0|]. intros Ea.
    assert (Ov : over ts' v n = dropN (lenN d - lenN (before_file t)) (v_rest v n)) by (unfold over; now rewrite (pos_is ts' n t' Gt'), (pos_is (v_tracks v) n t Gt), (file_is t' d Ed)). rewrite Ov. destruct (m_file t) as [d0|] eqn:E0.
    - destruct (Ga Ea) as (Sd & Ld); [discriminate|]. specialize (X7 Ld). rewrite (file_is t' d Ed) in X7. rewrite X7, N.sub_diag, dropN_0. exact Sd.
    - rewrite (G0 eq_refl). specialize (X8 eq_refl). rewrite (file_is t' d Ed) in X8. destruct X8 as (r & Er); [|exists (r ++ dropN (lenN d - lenN (before_file t)) []); rewrite Er, <- app_assoc; reflexivity]. destruct (proj1 Im n Hn) as (l & C & H). exists l. split; [exact C|now rewrite Ea]. }
  destruct (files_total ps a b w wr size added srs F Ep Ha Ad V Es (fd_flags fd) ts' (over ts' v) atts Fl) as (r & Er & Kr & Tr & Or).
  - intros bl Hb. destruct (Each (k_no bl) (Bd bl Hb)) as (t & t' & d & _ & Gt' & Ed & _). exists t'. split; [exact Gt'|]. rewrite Ed. discriminate.
  - intros nm d Hi. destruct nm as [k|]; [|destruct Fo1; apply (in_map fst) in Hi; exact Hi]. exists k. split; [reflexivity|]. now apply At.
  - exact Fo2.
  - exists r. split; [exact Er|].
    assert (All : forall n, data_of n its <> [] -> exists t t' t'' d, get N.eqb n (v_tracks v) = Ok t /\ get N.eqb n (v_tracks r) = Ok t'' /\ m_offset t'' = m_offset t /\ m_strip t'' = m_strip t /\ td_length (m_td t'') = td_length (m_td t) /\ get N.eqb n ts' = Ok t' /\ m_file t' = Some d /\
      m_file t'' = Some (takeN (lenN (data_of n its)) (d ++ over ts' v n)) /\ v_rest r n = dropN (lenN (data_of n its)) (d ++ over ts' v n) /\ (m_offset t = at_ n -> starts (data_of n its) (d ++ over ts' v n))).
    { intros n Hn. destruct (Each n Hn) as (t & t' & d & Gt & Gt' & Ed & (X1 & X2 & X3 & _) & S). destruct (Tr n t' Gt') as (t'' & Gt'' & Y1 & Y2 & Y3 & Y4). rewrite Ed in Y4. destruct Y4 as (Y4 & Y5). exists t, t', t'', d. split; [exact Gt|]. split; [exact Gt''|]. split; [congruence|]. split; [congruence|]. split; [congruence|]. split; [exact Gt'|]. split; [exact Ed|]. split; [exact Y4|]. split; [exact Y5|exact S]. }
    split; [split; [split; [rewrite Kr; exact Nd1|split]|]|split; [|split]].
    + intros n Hn. destruct (All n Hn) as (t & t' & t'' & d & Gt & Gt'' & Y1 & Y2 & Y3 & _). exists t''. split; [exact Gt''|]. destruct (proj1 (proj2 Rv) n Hn) as (u & Gu & Z1 & Z2 & Z3). assert (u = t) by congruence. subst u. rewrite Y1, Y2, Y3. now repeat split.
    + intros n t'' G D. assert (Ht : exists t', get N.eqb n ts' = Ok t').
      { destruct (get N.eqb n ts') as [t'|e] eqn:G'; [now exists t'|]. exfalso. apply (get_in N.eqb N.eqb_eq) in G. apply (in_map fst) in G. cbn [fst] in G. rewrite Kr in G. apply in_map_iff in G as ((k, u) & Ek & I). cbn [fst] in Ek. subst k. rewrite (in_get N.eqb N.eqb_eq n u ts' Nd1 I) in G'. discriminate. }
      destruct Ht as (t' & Gt'). destruct (Tr n t' Gt') as (u & Gu & Y1 & _). assert (u = t'') by congruence. subst u. rewrite Y1. now apply (R2 n).
    + intros n t2 Hn G. destruct (All n Hn) as (t & t' & t'' & d & Gt & Gt'' & Y1 & Y2 & Y3 & Gt' & Ed & Y4 & Y5 & S). assert (t2 = t'') by congruence. subst t2. destruct (Gv n t Hn Gt) as (Rc & _). split; [now rewrite Y1|]. split; [rewrite Y4; discriminate|]. intros Ea _. rewrite Y1 in Ea. specialize (S Ea). rewrite (file_is t'' _ Y4), Y5, takeN_dropN. split; [exact S|]. destruct S as (q & ->). rewrite takeN_app_exact by reflexivity. lia.
    + intros n Hn t2 G. destruct (All n Hn) as (t & t' & t'' & d & Gt & Gt'' & Y1 & Y2 & Y3 & Gt' & Ed & Y4 & _). assert (t2 = t'') by congruence. subst t2. rewrite Y4. discriminate.
    + intros n t2 Hn G. destruct (All n Hn) as (t & t' & t'' & d & Gt & Gt'' & Y1 & _). assert (t2 = t) by congruence. subst t2. now exists t''.
    + intros H. apply Or. intros bl Hb. destruct (All (k_no bl) (Bd bl Hb)) as (t & t' & t'' & d & Gt & Gt'' & Y1 & Y2 & Y3 & Gt' & Ed & Y4 & Y5 & S). exists t', d. split; [exact Gt'|]. split; [exact Ed|]. apply S. now apply (H (k_no bl) (Bd bl Hb)).
Qed.
Lemma attempt_is v : vgood v -> exists r, attempt fd srs main v = Ok (crc32 (v_out r) =? fd_crc32 fd, r) /\ vgood r /\ (forall n, data_of n its <> [] -> has_file r n) /\
  (forall n t, data_of n its <> [] -> get N.eqb n (v_tracks v) = Ok t -> exists t', get N.eqb n (v_tracks r) = Ok t' /\ m_offset t' = m_offset t) /\
  ((forall n, data_of n its <> [] -> is_at v n) -> v_out r = file_of ps).
Proof using Pok Ep Ha Ad V Es M Im Fl Cf.
  intros G. destruct (extract_again its main ms (v_tracks v) M) as (ts1 & at1 & Ex & _); [intros n Hn; destruct (proj1 Im n Hn) as (l & C & _); now exists l|exact (proj2 Im)|exact (proj1 G)|].
  destruct (made_good v (v_tracks v) ts1 at1 G eq_refl Ex) as (r & Er & H). exists r. split; [|exact H]. unfold attempt. rewrite Ex. cbn [bind fst snd]. rewrite Er. reflexivity.
Qed.
Lemma set_is v k o : vgood v -> data_of k its <> [] -> has_file v k -> 0 < o -> reach (all_items ms) k o -> exists r t, set_offset k o v = Ok r /\ vgood r /\ get N.eqb k (v_tracks r) = Ok t /\ m_offset t = o /\ forall n, n <> k -> get N.eqb n (v_tracks r) = get N.eqb n (v_tracks v).
Proof using M Im.
  intros ((Nd & R1 & R2) & G) Hk Hf Ho Rc. destruct (R1 k Hk) as (t & Gt & T1 & T2 & T3). unfold set_offset. rewrite Gt. cbn [bind]. destruct (N.eqb_spec (m_offset t) o) as [E|E].
  - exists v, t. split; [reflexivity|]. split; [split; [now split|exact G]|]. split; [exact Gt|]. split; [exact E|reflexivity].
  - specialize (Hf t Gt). destruct (m_file t) as [d|]; [|now destruct Hf]. eexists. eexists. split; [reflexivity|]. cbn [v_tracks v_rest]. split; [|split; [apply (get_put_same N.eqb N.eqb_eq)|split; [reflexivity|intros n Hn; now rewrite (get_put_other N.eqb N.eqb_eq) by exact Hn]]].
    split; [split; [now apply (put_nodup N.eqb N.eqb_eq)|split]|]; cbn [v_tracks v_rest].
    + intros n Hn. destruct (N.eq_dec n k) as [->|Nk]; [|rewrite (get_put_other N.eqb N.eqb_eq) by exact Nk; now apply R1]. rewrite (get_put_same N.eqb N.eqb_eq). eexists. split; [reflexivity|]. cbn [m_offset m_strip m_td]. now repeat split.
    + intros n u Gu D. destruct (N.eq_dec n k) as [->|Nk]; [contradiction|]. rewrite (get_put_other N.eqb N.eqb_eq) in Gu by exact Nk. now apply (R2 n).
    + intros n u Hn Gu. destruct (N.eqb_spec n k) as [->|Nk].
      * rewrite (get_put_same N.eqb N.eqb_eq) in Gu. apply ok_inj in Gu. subst u. cbn [m_offset m_file]. split; [exact Rc|]. split; [reflexivity|]. intros _ X. now destruct X.
      * rewrite (get_put_other N.eqb N.eqb_eq) in Gu by exact Nk. now apply G.
Qed.
(** all combinations *)
Definition choice (ko : N * list N) : Prop := data_of (fst ko) its <> [] /\ snd ko <> [] /\ forall o, In o (snd ko) -> 0 < o /\ reach (all_items ms) (fst ko) o.
Lemma check_is l : forall v, Forall choice l -> NoDup (map fst l) -> vgood v -> (forall k, In k (map fst l) -> has_file v k) ->
  exists c r, check_tracks vstate set_offset (attempt fd srs main) l v = Ok (c, r) /\ vgood r /\ (forall n, data_of n its <> [] -> has_file r n) /\
  (forall n t, data_of n its <> [] -> ~ In n (map fst l) -> get N.eqb n (v_tracks v) = Ok t -> exists t', get N.eqb n (v_tracks r) = Ok t' /\ m_offset t' = m_offset t) /\
  (c = true -> crc32 (v_out r) = fd_crc32 fd) /\
  ((forall n, data_of n its <> [] -> ~ In n (map fst l) -> is_at v n) -> (forall k os, In (k, os) l -> In (at_ k) os) -> c = true).
Proof using Pok Ep Ha Ad V Es M Im Fl Cf.
  induction l as [|(k, os) l IH]; intros v Fc Nd G Hf.
  - destruct (attempt_is v G) as (r & E & G' & H1 & H2 & H3). exists (crc32 (v_out r) =? fd_crc32 fd), r. cbn [check_tracks]. split; [exact E|]. split; [exact G'|]. split; [exact H1|]. split; [intros n t Hn _; now apply H2|]. split; [apply N.eqb_eq|]. intros At _. rewrite H3, Cf; [apply N.eqb_refl|]. intros n Hn. apply At; [exact Hn|intros []].
  - apply Forall_cons_iff in Fc as ((Hk & Ne & Ho) & Fc). cbn [map fst snd] in *. apply NoDup_cons_iff in Nd as (Nk & Nd'). cbn [check_tracks].
    set (each := fix each (os : list N) (v : vstate) : result (bool * vstate) := match os with [] => Ok (false, v) | o :: os => do v <- set_offset k o v; do r <- check_tracks vstate set_offset (attempt fd srs main) l v; if fst r then Ok r else each os (snd r) end).
    (* one step *)
    assert (Step : forall o v, In o os -> vgood v -> (forall q, In q (k :: map fst l) -> has_file v q) -> exists c r, (do v <- set_offset k o v; check_tracks vstate set_offset (attempt fd srs main) l v) = Ok (c, r) /\ vgood r /\ (forall n, data_of n its <> [] -> has_file r n) /\
      (forall n t, data_of n its <> [] -> ~ In n (k :: map fst l) -> get N.eqb n (v_tracks v) = Ok t -> exists t', get N.eqb n (v_tracks r) = Ok t' /\ m_offset t' = m_offset t) /\
      (c = true -> crc32 (v_out r) = fd_crc32 fd) /\ (o = at_ k -> (forall n, data_of n its <> [] -> ~ In n (k :: map fst l) -> is_at v n) -> (forall q qs, In (q, qs) l -> In (at_ q) qs) -> c = true)).
    { clear v G Hf. intros o v Io G Hf. destruct (Ho o Io) as (Ho1 & Ho2). destruct (set_is v k o G Hk (Hf k (or_introl eq_refl)) Ho1 Ho2) as (v1 & t1 & E1 & G1 & Gt1 & O1 & Same). rewrite E1. cbn [bind].
      destruct (IH v1 Fc Nd' G1) as (c & r & Ec & Gr & R1 & R2 & R3 & R4).
      - intros q Hq t Gt. rewrite Same in Gt by (intros ->; contradiction). exact (Hf q (or_intror Hq) t Gt).
      - exists c, r. split; [exact Ec|]. split; [exact Gr|]. split; [exact R1|]. split; [|split; [exact R3|]].
        + intros n t Hn Nn Gt. apply (R2 n t Hn); [intros X; apply Nn; now right|]. rewrite Same; [exact Gt|]. intros ->. apply Nn. now left.
        + intros Eo At Rest. apply R4; [|exact Rest]. intros n Hn Nn t Gt. destruct (N.eq_dec n k) as [->|Nq]; [congruence|]. rewrite Same in Gt by exact Nq. refine (At n Hn _ t Gt). intros [X|X]; [now apply Nq|contradiction]. }
    assert (Loop : forall os' v, incl os' os -> vgood v -> (forall q, In q (k :: map fst l) -> has_file v q) -> exists c r, each os' v = Ok (c, r) /\ vgood r /\ (os' <> [] -> forall n, data_of n its <> [] -> has_file r n) /\
      (forall n t, data_of n its <> [] -> ~ In n (k :: map fst l) -> get N.eqb n (v_tracks v) = Ok t -> exists t', get N.eqb n (v_tracks r) = Ok t' /\ m_offset t' = m_offset t) /\
      (c = true -> crc32 (v_out r) = fd_crc32 fd) /\ (In (at_ k) os' -> (forall n, data_of n its <> [] -> ~ In n (k :: map fst l) -> is_at v n) -> (forall q qs, In (q, qs) l -> In (at_ q) qs) -> c = true)).
    { clear v G Hf. induction os' as [|o os' IHo]; intros v In_ G Hf.
      - exists false, v. split; [reflexivity|]. split; [exact G|]. split; [intros X; now destruct X|]. split; [intros n t _ _ Gt; now exists t|]. split; [discriminate|intros []].
      - assert (Io : In o os) by (apply In_; now left). destruct (Step o v Io G Hf) as (c1 & r1 & E1 & G1 & S1 & S2 & S3 & S4). change (each (o :: os') v) with (do v <- set_offset k o v; do r <- check_tracks vstate set_offset (attempt fd srs main) l v; if fst r then Ok r else each os' (snd r)).
        destruct (set_offset k o v) as [v1|e]; [|discriminate E1]. cbn [bind] in *. rewrite E1. cbn [bind fst snd]. destruct c1.
        + exists true, r1. split; [reflexivity|]. split; [exact G1|]. split; [intros _; exact S1|]. split; [exact S2|]. split; [exact S3|reflexivity].
        + destruct (IHo r1) as (c & r & E & Gr & L1 & L2 & L3 & L4); [intros x Hx; apply In_; now right|exact G1| |].
          { intros q Hq. apply S1. destruct Hq as [<-|Hq]; [exact Hk|]. rewrite Forall_forall in Fc. apply in_map_iff in Hq as (z & <- & Hz). exact (proj1 (Fc z Hz)). }
          exists c, r. split; [exact E|]. split; [exact Gr|]. split; [|split; [|split; [exact L3|]]].
          * intros _. destruct os' as [|o' os']; [|now apply L1]. cbn in E. apply ok_inj in E. injection E as <- <-. exact S1.
          * intros n t Hn Nn Gt. destruct (S2 n t Hn Nn Gt) as (t1 & Gt1 & O1). destruct (L2 n t1 Hn Nn Gt1) as (t2 & Gt2 & O2). exists t2. split; [exact Gt2|congruence].
          * intros Hi At Rest. destruct Hi as [Hi|Hi]; [specialize (S4 Hi At Rest); discriminate S4|]. apply L4; [exact Hi| |exact Rest]. intros n Hn Nn t2 Gt2. destruct (proj1 (proj2 (proj1 G)) n Hn) as (t & Gt & _). destruct (S2 n t Hn Nn Gt) as (t1 & Gt1 & O1). assert (t2 = t1) by congruence. subst t2. rewrite O1. now apply (At n Hn Nn). }
    destruct (Loop os v (incl_refl os) G Hf) as (c & r & E & Gr & L1 & L2 & L3 & L4). exists c, r. split; [exact E|]. split; [exact Gr|]. split; [|split; [exact L2|split; [exact L3|]]].
    + now apply L1.
    + intros At Rest. apply L4; [apply (Rest k os); now left|exact At|]. intros q qs Hq. apply (Rest q qs). now right.
Qed.
End Attempts.
