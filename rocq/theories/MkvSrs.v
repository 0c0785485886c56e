(** MkvSrs: profiling a sample, creating and loading its SRS. *)
From Verif Require Import Base BaseFacts Crc CrcFacts SrsRec SrsRecSpec SrsRecFacts Srs SrrFacts Ebml EbmlSpec EbmlFacts Mkv StrmSpec Mp3Spec MkvSpec MkvRead.

(** ** Tracks of items *)
Lemma data_cons n i its : data_of n (i :: its) = concat (frames_of n i) ++ data_of n its. Proof. reflexivity. Qed.
Lemma data_app n a b : data_of n (a ++ b) = data_of n a ++ data_of n b. Proof. unfold data_of. now rewrite map_app, concat_app. Qed.
Lemma data_snoc n its i : data_of n (its ++ [i]) = data_of n its ++ concat (frames_of n i).
Proof. rewrite data_app. unfold data_of at 2. cbn [map concat]. now rewrite app_nil_r. Qed.
Lemma bytes_snoc its i : bytes_of (its ++ [i]) = bytes_of its ++ item_bytes i.
Proof. rewrite bytes_app. unfold bytes_of at 2. cbn [map concat]. now rewrite app_nil_r. Qed.
Lemma listed_app n a b : listed n (a ++ b) <-> listed n a \/ listed n b.
Proof.
  split; [intros (w & d & H & E); apply in_app_or in H as [H|H]; [left|right]; now exists w, d|]. intros [(w & d & H & E)|(w & d & H & E)]; exists w, d; (split; [apply in_or_app; tauto|exact E]).
Qed.
Lemma has_app n a b : has_track n (a ++ b) <-> has_track n a \/ has_track n b.
Proof.
  unfold has_track. rewrite listed_app. split.
  - intros [[H|H]|(bl & H & E)]; [tauto|tauto|]. apply in_app_or in H as [H|H]; [left|right]; right; now exists bl.
  - intros [[H|(bl & H & E)]|[H|(bl & H & E)]]; [tauto|right|tauto|right]; exists bl; (split; [apply in_or_app; tauto|exact E]).
Qed.
Lemma listed_one n id w d : listed n [Leaf id w d] <-> id = track_number /\ unbe d = n.
Proof. split; [intros (w' & d' & [H|[]] & E); injection H as -> -> ->; now split|]. intros (-> & E). exists w, d. split; [now left|exact E]. Qed.
Lemma has_leaf n id w d : has_track n [Leaf id w d] <-> id = track_number /\ unbe d = n.
Proof. unfold has_track. rewrite listed_one. split; [intros [H|(b & [H|[]] & _)]; [exact H|discriminate H]|now left]. Qed.
Lemma has_open n id w k : ~ has_track n [Open id w k].
Proof. intros [(w' & d & [H|[]] & _)|(b & [H|[]] & _)]; discriminate H. Qed.
Lemma has_blk n b : has_track n [Blk b] <-> k_no b = n.
Proof. split; [intros [(w' & d & [H|[]] & _)|(c & [H|[]] & E)]; [discriminate H|injection H as ->; exact E]|]. intros E. right. exists b. split; [now left|exact E]. Qed.
Lemma listed_blk n b : ~ listed n [Blk b]. Proof. intros (w & d & [H|[]] & _). discriminate H. Qed.
Lemma listed_open n id w k : ~ listed n [Open id w k]. Proof. intros (w' & d & [H|[]] & _). discriminate H. Qed.
Lemma frames_other n i : ~ has_track n [i] -> frames_of n i = [].
Proof. destruct i as [| |b]; try reflexivity. rewrite has_blk. intros H. cbn [frames_of]. now replace (k_no b =? n) with false by lia. Qed.
Lemma no_data n its : ~ has_track n its -> data_of n its = [].
Proof.
  induction its as [|i its IH]; intros H; [reflexivity|]. rewrite data_cons. change (i :: its) with ([i] ++ its) in H. rewrite has_app in H. rewrite frames_other by tauto. apply IH. tauto.
Qed.
Lemma number_is d : number_ok d -> get_ebml_uint d 0 (lenN d) = Ok (unbe d).
Proof.
  intros (L & U). destruct d as [|c r]; [cbn [lenN] in L; lia|]. unfold get_ebml_uint. rewrite (byte_at_app [] c r : byte_at (c :: r) 0 = _). cbn [bind].
  rewrite lenN_cons in *. replace (N.to_nat (1 + lenN r - 1)) with (length r) by (rewrite lenN_length; lia).
  pose proof (uint_loop_ok r [c] [] (N.land (b2n c) (N.shiftr 255 (1 + lenN r)))) as X. cbn [app] in X. rewrite app_nil_r in X. change (lenN [c]) with (0 + 1) in X. rewrite X. rewrite unbe_cons in *. do 2 f_equal.
  assert (M : N.shiftr 255 (1 + lenN r) = N.ones (8 - (1 + lenN r))) by (assert (K : lenN r = 0 \/ lenN r = 1 \/ lenN r = 2 \/ lenN r = 3 \/ lenN r = 4 \/ lenN r = 5 \/ lenN r = 6 \/ lenN r = 7) by lia; repeat (destruct K as [K|K]; [rewrite K; reflexivity|]); rewrite K; reflexivity).
  rewrite M, N.land_ones. f_equal. apply N.mod_small.
  assert (P : 2 ^ (7 * (1 + lenN r)) = 2 ^ (8 - (1 + lenN r)) * 256 ^ lenN r) by (change 256 with (2 ^ 8); rewrite <- N.pow_mul_r, <- N.pow_add_r; f_equal; lia).
  assert (Q : 256 ^ lenN r <> 0) by (apply N.pow_nonzero; lia). rewrite P in U. apply (N.mul_lt_mono_pos_r (256 ^ lenN r)); lia.
Qed.

(** ** Signatures *)
Definition is_sig (sig d : bytes) : Prop := starts sig d /\ (lenN sig < 256 -> sig = d) /\ lenN sig < 2 ^ 14.
Lemma sig_loops_range content already togo : forall loop, (1 <= togo)%nat -> loop <= sig_loops content already togo loop /\ sig_loops content already togo loop + 1 <= loop + N.of_nat togo.
Proof.
  induction togo as [|togo IH]; intros loop H; [lia|]. cbn [sig_loops]. destruct (negb _); [lia|]. destruct togo as [|togo]; [lia|]. destruct (IH (loop + 1) ltac:(lia)). lia.
Qed.
Lemma min_sig_range content already : already < 256 -> (256 <= Z.of_N already + min_sig content already < 2 ^ 14)%Z.
Proof.
  intros H. unfold min_sig, SIG_SIZE. destruct (sig_loops_range content already 40 1 ltac:(lia)) as (A & B). change (N.of_nat 40) with 40 in B. destruct (sig_loops content already 40 1 =? 40) eqn:E; lia.
Qed.
Lemma slice_0 (m : Z) (l : bytes) : (0 <= m)%Z -> slice 0 m l = takeN (Z.to_N m) l.
Proof.
  intros H. unfold slice, bound. replace (m <? 0)%Z with false by lia. change (0 <? 0)%Z with false. cbn [Z.to_N]. rewrite N.min_0_l, N.sub_0_r, sub_0.
  destruct (N.le_gt_cases (Z.to_N m) (lenN l)); [now rewrite N.min_l by lia|]. rewrite N.min_r by lia. now rewrite !takeN_all by lia.
Qed.
Lemma sig_add (b d content : bytes) : is_sig b d -> is_sig (if lenN b <? SIG_SIZE then b ++ slice 0 (min_sig content (lenN b)) content else b) (d ++ content).
Proof.
  intros (S & F & L). change SIG_SIZE with 256. destruct (N.ltb_spec (lenN b) 256) as [H|H].
  - specialize (F H). subst d. pose proof (min_sig_range content (lenN b) H) as R. rewrite slice_0 by lia. set (m := Z.to_N (min_sig content (lenN b))) in *.
    split; [exists (dropN m content); now rewrite <- app_assoc, takeN_dropN|]. rewrite lenN_app, lenN_takeN. split; [|lia]. intros X. f_equal. apply takeN_all. lia.
  - destruct S as (r & ->). split; [exists (r ++ content); now rewrite app_assoc|]. split; [lia|exact L].
Qed.

(** ** Profiling *)
Definition is_td (n : N) (d : bytes) (t : track_data) : Prop :=
  td_flags t = 0 /\ td_number t = n /\ td_offset t = 0 /\ td_length t = lenN d /\ is_sig (td_signature t) d.
Definition profile_leaf (p : pstate) (id content : bytes) : result pstate :=
    let other n := mkP (p_tracks p) (p_other p + n) (zcrc32 content (p_crc p)) (p_cur p) (p_flag p) (p_att p) in
    if beqb id TRACKNUMBER then
               do n <- get_ebml_uint content 0 (lenN content);
               let p := other (lenN content) in
               Ok (mkP (with_key N.eqb n (new_mtrack n) (p_tracks p)) (p_other p) (p_crc p) n (p_flag p) (p_att p))
             else if beqb id TRACKCODEC then do _ <- get N.eqb (p_cur p) (p_tracks p); Ok (other (lenN content))
             else if beqb id COMPRESSIONALGORITHM then
               do n <- get_ebml_uint content 0 (lenN content);
               do _ <- get N.eqb (p_cur p) (p_tracks p);
               let p := other (lenN content) in
               Ok (mkP (p_tracks p) (p_other p) (p_crc p) (p_cur p) (n =? 3) (p_att p))
             else if beqb id COMPRESSIONSETTINGS then
               let p := other (lenN content) in
               if p_flag p then
                 do t <- get N.eqb (p_cur p) (p_tracks p);
                 Ok (mkP (put N.eqb (p_cur p) (set_strip t content) (p_tracks p)) (p_other p) (p_crc p) (p_cur p) (p_flag p) (p_att p))
               else Ok p
             else if beqb id ATTACHED_FILE_NAME then do _ <- decode_utf8 content; Ok (other (lenN content))
             else if beqb id ATTACHED_FILE_DATA then
               let p := other 0 in
               Ok (mkP (p_tracks p) (p_other p) (p_crc p) (p_cur p) (p_flag p) (p_att p + lenN content))
             else Ok (other (lenN content)).
Definition profile' (p : pstate) (pos : N) (i : item) : result (pstate * bool) :=
  let p := mkP (p_tracks p) (p_other p + lenN (head_of i)) (zcrc32 (head_of i) (p_crc p)) (p_cur p) (p_flag p) (p_att p) in
  match i with
  | Open id _ _ => if beqb id COMPRESSION then do _ <- get N.eqb (p_cur p) (p_tracks p); Ok (p, true) else Ok (p, true)
  | Leaf id _ d => do p <- profile_leaf p id d; Ok (p, true)
  | Blk b =>
      let ts := with_key N.eqb (k_no b) (new_mtrack (k_no b)) (p_tracks p) in
      do t <- get N.eqb (k_no b) ts;
      Ok (mkP (put N.eqb (k_no b) (add_block t (lenN (concat (k_frames b))) (concat (k_frames b))) ts) (p_other p + lenN (blk_head b))
              (zcrc32 (concat (k_frames b)) (zcrc32 (blk_head b) (p_crc p))) (p_cur p) (p_flag p) (p_att p), true)
  end.
Lemma blk_plain b : blk_ok b -> forall l, forallb (fun x => negb (existsb (beqb x) [block_id; simple_block])) l = true -> existsb (beqb (k_id b)) l = false.
Proof.
  intros (H & _) l F. apply not_true_is_false. intros X. apply existsb_exists in X as (y & Hy & E). apply beqb_eq in E. subst y. rewrite forallb_forall in F. specialize (F _ Hy). destruct H as [H|H]; rewrite H in F; discriminate F.
Qed.
Lemma leaf_plain id l : plain id \/ In id leaves -> forallb (fun x => existsb (beqb x) special && negb (existsb (beqb x) leaves)) l = true -> existsb (beqb id) l = false.
Proof.
  intros H F. apply not_true_is_false. intros X. apply existsb_exists in X as (y & Hy & E). apply beqb_eq in E. subst y. rewrite forallb_forall in F. specialize (F _ Hy). apply andb_true_iff in F as (A & B). destruct H as [H|H].
  - apply H. apply existsb_exists in A as (y & Iy & E). apply beqb_eq in E. now subst.
  - apply negb_true_iff in B. assert (existsb (beqb id) leaves = true); [|congruence]. apply existsb_exists. exists id. split; [exact H|apply beqb_refl].
Qed.
Lemma is_in id l : existsb (beqb id) [l] = beqb id l. Proof. cbn [existsb]. apply orb_false_r. Qed.
Lemma profile_acts f its : Forall sorted its -> acts false (profile_step f) profile' f its.
Proof.
  intros F its1 i its2 a b s Ei Ea E. rewrite Forall_forall in F. specialize (F i). rewrite Ei in F. specialize (F (in_elt i its1 its2)). destruct i as [id w n|id w d|bl].
  - cbn [sorted] in F. unfold profile_step, profile', id_in, id_is. change (e_id (ek (Open id w n) (lenN a))) with id. rewrite open_data. destruct (beqb id COMPRESSION) eqn:Ec.
    + apply beqb_eq in Ec. subst id. match goal with |- context [existsb (beqb COMPRESSION) ?l] => change (existsb (beqb COMPRESSION) l) with false end. cbv iota zeta. cbn [p_cur p_tracks]. destruct (get N.eqb (p_cur s) (p_tracks s)); reflexivity.
    + match goal with |- context [existsb (beqb id) ?l] => assert (X : existsb (beqb id) l = true) end; [repeat (destruct F as [<-|F]; [first [reflexivity|discriminate Ec]|]); destruct F|]. rewrite X. reflexivity.
  - destruct F as (F & Nu). unfold profile_step, profile', id_in, id_is. change (e_id (ek (Leaf id w d) (lenN a))) with id. rewrite (leaf_plain id) by (exact F || reflexivity). rewrite <- (is_in id COMPRESSION), (leaf_plain id) by (exact F || reflexivity).
    change (e_block (ek (Leaf id w d) (lenN a))) with (@None block). cbv iota. rewrite (leaf_read f a b false id w d E) by discriminate. cbn [fst snd]. change (Z.to_N (e_length (ek (Leaf id w d) (lenN a)))) with (Z.to_N (Z.of_N (lenN d))). rewrite N2Z.id.
    change (e_header (ek (Leaf id w d) (lenN a))) with (head_of (Leaf id w d)). unfold profile_leaf. cbv zeta. cbn [p_tracks p_other p_crc p_cur p_flag p_att].
    repeat (match goal with |- context [if beqb id ?x then _ else _] => destruct (beqb id x) end;
      [repeat (match goal with |- context [bind ?x _] => match x with get_ebml_uint _ _ _ => destruct x | get _ _ _ => destruct x | decode_utf8 _ => destruct x end end; cbn [bind]; try reflexivity); try (destruct (p_flag s); cbn [bind]; try reflexivity; destruct (get N.eqb (p_cur s) (p_tracks s)); reflexivity); reflexivity|]).
    reflexivity.
  - cbn [sorted] in F. unfold profile_step, profile', id_in, id_is. change (e_id (ek (Blk bl) (lenN a))) with (k_id bl). rewrite (blk_plain bl F) by reflexivity. rewrite <- (is_in (k_id bl) COMPRESSION), (blk_plain bl F) by reflexivity.
    cbn [ek e_block b_track b_header e_length e_header]. replace (Z.of_N (lenN (concat (k_frames bl))) <? 0)%Z with false by lia. rewrite N2Z.id. cbv zeta. cbn [p_tracks p_other p_crc p_cur p_flag p_att].
    destruct (get N.eqb (k_no bl) _) as [t|e]; [|reflexivity]. cbn [bind]. pose proof (blk_read f a b bl E) as R. cbn [ek] in R. rewrite R. reflexivity.
Qed.
(** the tracks after some items *)
Definition tracked (its : list item) (ts : mtracks) : Prop :=
  NoDup (map fst ts) /\ forall n, match get N.eqb n ts with Ok t => has_track n its /\ is_td n (data_of n its) (m_td t) | Err _ => ~ has_track n its end.
Lemma tracked_same its i ts : (forall n, ~ has_track n [i]) -> tracked its ts -> tracked (its ++ [i]) ts.
Proof.
  intros Hi (Nd & H). split; [exact Nd|]. intros n. specialize (H n). specialize (Hi n). rewrite data_snoc, frames_other by exact Hi. cbn [concat]. rewrite app_nil_r. destruct (get N.eqb n ts); rewrite has_app; tauto.
Qed.
Lemma new_is n : is_td n [] (m_td (new_mtrack n)).
Proof. repeat split. exists []. reflexivity. Qed.
Lemma tracked_key its ts i k : (forall n, has_track n [i] <-> k = n) -> (forall n, frames_of n i = []) -> tracked its ts -> tracked (its ++ [i]) (with_key N.eqb k (new_mtrack k) ts).
Proof.
  intros Hi Fi (Nd & H). split; [apply (with_key_nodup N.eqb N.eqb_eq); exact Nd|]. intros n. specialize (H n). rewrite (get_with_key N.eqb N.eqb_eq). rewrite data_snoc, Fi. cbn [concat]. rewrite app_nil_r. destruct (get N.eqb n ts) as [t|e]; [rewrite has_app, Hi|destruct (N.eqb_spec k n) as [->|Nk]; rewrite has_app, Hi].
  - split; [left; apply H|apply H].
  - split; [now right|]. rewrite no_data by exact H. apply new_is.
  - tauto.
Qed.
Lemma with_key_same k v d : @with_key N mtrack N.eqb k v (with_key N.eqb k v d) = with_key N.eqb k v d.
Proof. unfold with_key at 1. rewrite (get_with_key N.eqb N.eqb_eq). rewrite N.eqb_refl. now destruct (get N.eqb k d). Qed.
Lemma tracked_block its ts b : tracked its ts -> exists t, get N.eqb (k_no b) (with_key N.eqb (k_no b) (new_mtrack (k_no b)) ts) = Ok t /\ is_td (k_no b) (data_of (k_no b) its) (m_td t) /\
  tracked (its ++ [Blk b]) (put N.eqb (k_no b) (add_block t (lenN (concat (k_frames b))) (concat (k_frames b))) (with_key N.eqb (k_no b) (new_mtrack (k_no b)) ts)).
Proof.
  intros (Nd & H). set (k := k_no b) in *. assert (G : exists t, get N.eqb k (with_key N.eqb k (new_mtrack k) ts) = Ok t /\ is_td k (data_of k its) (m_td t)).
  { rewrite (get_with_key N.eqb N.eqb_eq), N.eqb_refl. specialize (H k). destruct (get N.eqb k ts) as [t|e]; [exists t; split; [reflexivity|apply H]|]. eexists. split; [reflexivity|]. rewrite no_data by exact H. apply new_is. }
  destruct G as (t & G & T). exists t. split; [exact G|]. split; [exact T|]. split; [apply (put_nodup N.eqb N.eqb_eq), (with_key_nodup N.eqb N.eqb_eq); exact Nd|]. intros n. rewrite data_snoc. cbn [frames_of]. fold k. destruct (N.eq_dec n k) as [->|Nk].
  - rewrite (get_put_same N.eqb N.eqb_eq). rewrite N.eqb_refl, has_app, has_blk. split; [now right|]. destruct T as (T1 & T2 & T3 & T4 & T5). unfold add_block, is_td. cbn [m_td td_flags td_number td_offset td_length td_signature].
    split; [exact T1|]. split; [exact T2|]. split; [exact T3|]. split; [now rewrite T4, lenN_app|]. now apply sig_add.
  - rewrite (get_put_other N.eqb N.eqb_eq) by exact Nk. rewrite (get_with_key N.eqb N.eqb_eq). specialize (H n). replace (k =? n) with false by lia. cbn [concat]. rewrite app_nil_r. destruct (get N.eqb n ts) as [x|e]; rewrite has_app, has_blk; fold k; [split; [left; apply H|apply H]|]. intros [X|X]; [now apply H|now apply Nk].
Qed.
Lemma tracked_put its ts k t t' : tracked its ts -> get N.eqb k ts = Ok t -> m_td t' = m_td t -> tracked its (put N.eqb k t' ts).
Proof.
  intros (Nd & H) G E. split; [now apply (put_nodup N.eqb N.eqb_eq)|]. intros n. specialize (H n). destruct (N.eq_dec n k) as [->|Nk].
  - rewrite (get_put_same N.eqb N.eqb_eq), E. now rewrite G in H.
  - now rewrite (get_put_other N.eqb N.eqb_eq) by exact Nk.
Qed.
Lemma sum_put k t v ts : get N.eqb k ts = Ok t -> sum_lengths (put N.eqb k v ts) + td_length (m_td t) = sum_lengths ts + td_length (m_td v).
Proof.
  induction ts as [|(q, w) ts IH]; [discriminate|]. cbn [get put]. destruct (N.eqb_spec q k) as [->|Nq].
  - intros H. apply ok_inj in H. subst w. cbn [sum_lengths fold_right snd]. unfold sum_lengths. lia.
  - intros H. specialize (IH H). cbn [sum_lengths fold_right snd]. unfold sum_lengths in IH. lia.
Qed.
Lemma sum_key k ts : sum_lengths (with_key N.eqb k (new_mtrack k) ts) = sum_lengths ts.
Proof.
  unfold with_key. destruct (get N.eqb k ts) eqn:E; [reflexivity|]. revert E. induction ts as [|(q, w) ts IH]; [reflexivity|]. cbn [get put]. destruct (N.eqb_spec q k); [discriminate|].
  intros H. specialize (IH H). cbn [sum_lengths fold_right snd]. unfold sum_lengths in IH. now rewrite IH.
Qed.
Definition profiled (its : list item) (p : pstate) : Prop :=
  p_crc p = crc32 (bytes_of its) /\ p_other p + p_att p + sum_lengths (p_tracks p) = lenN (bytes_of its) /\ tracked its (p_tracks p) /\ ((exists n, listed n its) -> listed (p_cur p) its).
Definition unnamed (i : item) : Prop := match i with Leaf id _ d => id = file_name /\ forall t, decode_utf8 d <> Ok t | _ => False end.
Lemma prof_step its p pos i : sorted i -> profiled its p ->
  match profile' p pos i with Ok (p', go) => go = true /\ profiled (its ++ [i]) p' | Err _ => (about_track i /\ ~ exists n, listed n its) \/ unnamed i end.
Proof.
  intros So (Pc & Po & Pt & Pl).
  assert (Hd : forall x, lenN (bytes_of its) + x = p_other p + x + p_att p + sum_lengths (p_tracks p)) by (intros; lia).
  assert (Crc : forall x, crc32 (bytes_of its ++ x) = zcrc32 x (p_crc p)) by (intros x; rewrite Pc; unfold crc32; now rewrite zcrc32_app).
  assert (Same : forall x, (forall n, ~ listed n [x]) -> (exists n, listed n (its ++ [x])) -> listed (p_cur p) (its ++ [x])).
  { intros x Hx (n & Hn). rewrite listed_app in Hn |- *. left. apply Pl. exists n. specialize (Hx n). tauto. }
  assert (Cur : (exists n, listed n its) -> exists t, get N.eqb (p_cur p) (p_tracks p) = Ok t).
  { intros X. specialize (Pl X). destruct Pt as (_ & Pt). specialize (Pt (p_cur p)). destruct (get N.eqb (p_cur p) (p_tracks p)) as [t|e]; [now exists t|]. exfalso. apply Pt. now left. }
  destruct i as [id w n|id w d|b].
  - assert (K : profiled (its ++ [Open id w n]) (mkP (p_tracks p) (p_other p + lenN (header id w n)) (zcrc32 (header id w n) (p_crc p)) (p_cur p) (p_flag p) (p_att p))).
    { split; [|split; [|split]]; cbn [p_crc p_other p_att p_tracks p_cur].
      - rewrite bytes_snoc. symmetry. apply Crc.
      - rewrite bytes_snoc, lenN_app. cbn [item_bytes]. rewrite Hd. reflexivity.
      - apply tracked_same; [intros k; apply has_open|exact Pt].
      - apply Same. intros k. apply listed_open. }
    unfold profile'. cbn [head_of p_tracks p_cur]. destruct (beqb id COMPRESSION) eqn:Ec; [|now split]. apply beqb_eq in Ec. destruct (get N.eqb (p_cur p) (p_tracks p)) as [t|e] eqn:G; cbn [bind]; [now split|]. left. split; [exact Ec|]. intros X. destruct (Cur X). congruence.
  - destruct So as (So & Nu).
    assert (K : forall flag att, id <> track_number -> profiled (its ++ [Leaf id w d]) (mkP (p_tracks p) (p_other p + lenN (header id w (lenN d)) + lenN d - att) (zcrc32 d (zcrc32 (header id w (lenN d)) (p_crc p))) (p_cur p) flag (p_att p + att)) \/ lenN d < att).
    { intros flag att Ni. destruct (N.ltb_spec (lenN d) att) as [X|X]; [now right|left]. split; [|split; [|split]]; cbn [p_crc p_other p_att p_tracks p_cur].
      - rewrite bytes_snoc. cbn [item_bytes]. now rewrite Crc, zcrc32_app.
      - rewrite bytes_snoc, lenN_app. cbn [item_bytes]. rewrite lenN_app. lia.
      - apply tracked_same; [intros k; rewrite has_leaf; tauto|exact Pt].
      - apply Same. intros k. rewrite listed_one. tauto. }
    assert (K0 : forall flag, id <> track_number -> profiled (its ++ [Leaf id w d]) (mkP (p_tracks p) (p_other p + lenN (header id w (lenN d)) + lenN d) (zcrc32 d (zcrc32 (header id w (lenN d)) (p_crc p))) (p_cur p) flag (p_att p))).
    { intros flag Ni. destruct (K flag 0 Ni) as [X|X]; [|lia]. rewrite N.sub_0_r, N.add_0_r in X. exact X. }
    unfold profile'. cbn [head_of]. unfold profile_leaf. cbv zeta. cbn [p_tracks p_other p_crc p_cur p_flag p_att].
    destruct (beqb id TRACKNUMBER) eqn:C1; [apply beqb_eq in C1|].
    { rewrite (number_is d) by (apply Nu; now left). cbn [bind]. split; [reflexivity|]. split; [|split; [|split]]; cbn [p_crc p_other p_att p_tracks p_cur].
      - rewrite bytes_snoc. cbn [item_bytes]. now rewrite Crc, zcrc32_app.
      - rewrite bytes_snoc, lenN_app, sum_key. cbn [item_bytes]. rewrite lenN_app. lia.
      - apply tracked_key; [|reflexivity|exact Pt]. intros n. rewrite has_leaf. split; [tauto|]. intros Y. split; [exact C1|exact Y].
      - intros _. rewrite listed_app, listed_one. right. split; [exact C1|reflexivity]. }
    assert (Ni : id <> track_number) by (intros ->; discriminate C1).
    destruct (beqb id TRACKCODEC) eqn:C2; [apply beqb_eq in C2|].
    { destruct (get N.eqb (p_cur p) (p_tracks p)) as [t|e] eqn:G; cbn [bind]; [split; [reflexivity|now apply K0]|]. left. split; [cbn [about_track]; rewrite C2; now left|]. intros X. destruct (Cur X). congruence. }
    destruct (beqb id COMPRESSIONALGORITHM) eqn:C3; [apply beqb_eq in C3|].
    { rewrite (number_is d) by (apply Nu; now right). cbn [bind]. destruct (get N.eqb (p_cur p) (p_tracks p)) as [t|e] eqn:G; cbn [bind]; [split; [reflexivity|now apply K0]|]. left. split; [cbn [about_track]; rewrite C3; right; now left|]. intros X. destruct (Cur X). congruence. }
    destruct (beqb id COMPRESSIONSETTINGS) eqn:C4; [apply beqb_eq in C4|].
    { destruct (p_flag p) eqn:Fl; [|split; [reflexivity|now apply K0]]. destruct (get N.eqb (p_cur p) (p_tracks p)) as [t|e] eqn:G; cbn [bind].
      - split; [reflexivity|]. destruct (K0 true Ni) as (A & B & C & D). cbn [p_crc p_other p_att p_tracks p_cur] in *. split; [exact A|]. split; [cbn [p_other p_att p_tracks]; pose proof (sum_put (p_cur p) t (set_strip t d) (p_tracks p) G) as X; cbn [set_strip m_td] in X; lia|]. split; [|exact D]. now apply (tracked_put _ _ _ t).
      - left. split; [cbn [about_track]; rewrite C4; right; right; now left|]. intros X. destruct (Cur X). congruence. }
    destruct (beqb id ATTACHED_FILE_NAME) eqn:C5; [apply beqb_eq in C5|].
    { destruct (decode_utf8 d) as [t|e] eqn:U; cbn [bind]; [split; [reflexivity|now apply K0]|]. right. split; [exact C5|]. rewrite U. discriminate. }
    destruct (beqb id ATTACHED_FILE_DATA) eqn:C6; [|split; [reflexivity|now apply K0]]. cbn [bind]. split; [reflexivity|]. destruct (K (p_flag p) (lenN d) Ni) as [X|X]; [|lia]. rewrite N.add_sub in X. rewrite N.add_0_r. exact X.
  - unfold profile'. cbn [head_of p_tracks]. destruct (tracked_block its (p_tracks p) b Pt) as (t & G & T & Tr). cbv zeta. rewrite G. cbn [bind]. split; [reflexivity|]. split; [|split; [|split]]; cbn [p_crc p_other p_att p_tracks p_cur].
    + rewrite bytes_snoc. cbn [item_bytes]. now rewrite Crc, !zcrc32_app.
    + rewrite bytes_snoc, lenN_app. cbn [item_bytes]. rewrite !lenN_app. pose proof (sum_put _ t (add_block t (lenN (concat (k_frames b))) (concat (k_frames b))) _ G) as X. rewrite sum_key in X. unfold add_block in X at 2. cbn [m_td td_length] in X. destruct T as (_ & _ & _ & T4 & _). lia.
    + exact Tr.
    + apply Same. intros k. apply listed_blk.
Qed.
Lemma prof_run its : Forall sorted its -> forall pos p0 p, profiled p0 p ->
  match irun false never profile' its pos p with
  | Ok p' => profiled (p0 ++ its) p'
  | Err _ => exists x i y, its = x ++ i :: y /\ ((about_track i /\ ~ exists n, listed n (p0 ++ x)) \/ unnamed i)
  end.
Proof.
  induction 1 as [|i its Hi _ IH]; intros pos p0 p H; cbn [irun]; [now rewrite app_nil_r|]. change (never p) with false. cbv iota. pose proof (prof_step p0 p pos i Hi H) as X. destruct (profile' p pos i) as [(p', go)|e]; cbn [bind].
  - destruct X as (-> & X). cbn [fst snd]. specialize (IH (pos + lenN (enc false i)) (p0 ++ [i]) p' X). destruct (irun _ _ _ _ _ _) as [q|e]; [now rewrite <- app_assoc in IH|]. destruct IH as (x & j & y & -> & Hj). exists (i :: x), j, y. split; [reflexivity|]. now rewrite <- app_assoc in Hj.
  - exists [], i, its. split; [reflexivity|]. now rewrite app_nil_r.
Qed.
Definition fd_of (name : text) (f : bytes) : file_data := {| fd_flags := NEW_FLAGS; fd_appname := []; fd_sample_name := name; fd_size := lenN f; fd_crc32 := crc32 f |}.
Lemma profile_is name ps : Forall part_ok ps ->
  match mkv_profile name (file_of ps) with
  | Ok (fd, ts) => fd = fd_of name (file_of ps) /\ tracked (all_items ps) ts
  | Err _ => ~ numbered (all_items ps) \/ exists i, In i (all_items ps) /\ unnamed i
  end.
Proof.
  intros F. destruct (parts_syn ps F) as (Ps & So). unfold mkv_profile.
  pose proof (looks_syn (fun _ _ => true) ps Ps 0) as Sy. rewrite looks_all in Sy by reflexivity.
  rewrite (run_items true false never _ profile' (file_of ps) (all_items ps) []).
  - pose proof (prof_run (all_items ps) So 0 [] (mkP [] 0 0 0 false 0)) as X. destruct (irun _ _ _ _ _ _) as [p|e]; cbn [bind].
    + destruct X as (A & B & C & _). { split; [reflexivity|]. split; [reflexivity|]. split; [split; [constructor|]|]; [intros n [(w & d & [] & _)|(b & [] & _)]|intros (n & w & d & [] & _)]. }
      cbn [app] in *. unfold file_of at 1. rewrite <- B, N.eqb_refl. split; [|exact C]. unfold fd_of. do 2 f_equal. exact A.
    + destruct X as (x & i & y & E & H). { split; [reflexivity|]. split; [reflexivity|]. split; [split; [constructor|]|]; [intros n [(w & d & [] & _)|(b & [] & _)]|intros (n & w & d & [] & _)]. }
      destruct H as [(A & B)|H]; [left; intros Nu; apply B, (Nu x i y E A)|right]. exists i. split; [rewrite E; apply in_elt|exact H].
  - rewrite app_nil_r. symmetry. apply encs_false.
  - reflexivity.
  - exact Sy.
  - intros _. split; [reflexivity|]. intros x i y E. rewrite encs_false. now apply (parts_fit ps F x i y).
  - now apply profile_acts.
Qed.

(** ** Creating *)
Definition kinds (o l : list bytes) (i : item) : Prop :=
  match i with
  | Open id _ _ => In id o
  | Leaf id _ d => (plain id \/ In id l) /\ (id = track_number \/ id = algorithm -> number_ok d)
  | Blk b => blk_ok b
  end.
Definition inner (id : bytes) : list bytes :=
  if beqb id tracks then [track_entry; encodings; encoding; compression] else if beqb id attachments then [attached] else [block_group].
Lemma looks_kinds (inside : N -> part -> bool) (o l : list bytes) ps : Forall part_ok ps -> In segment o -> incl leaves l ->
  (forall pos id w its, In id [tracks; attachments; cluster] -> if inside pos (Group id w its) then In id o /\ incl (inner id) o else In id l) -> forall pos, Forall (kinds o l) (looks inside pos ps).
Proof.
  intros F So Il Hi. induction F as [|p ps H _ IH]; intros pos; [constructor|]. cbn [looks]. apply Forall_app. split; [|apply IH]. destruct p as [i|id w its]; cbn [look].
  - constructor; [|constructor]. cbn [part_ok] in H. destruct i as [id w n|id w d|b]; cbn [item_ok kinds] in *.
    + destruct H as ([<-|[]] & _). exact So.
    + destruct H as (_ & _ & [P|[]] & Nu). split; [now left|exact Nu].
    + destruct H as ([] & _).
  - destruct H as (I & V & G & _). specialize (Hi pos id w its I). destruct (inside pos (Group id w its)).
    + destruct Hi as (Io & In_). constructor; [exact Io|]. rewrite Forall_forall in G |- *. intros i Hi. specialize (G i Hi). destruct G as [(-> & G) | [(-> & G) | (-> & G)]]; destruct i as [id' w' n|id' w' d|b]; cbn [item_ok kinds] in *; try tauto.
      * apply In_, G.
      * destruct G as (_ & _ & [P|P] & Nu); (split; [|exact Nu]); [now left|right; apply Il; revert P; now apply (incl_b [track_number; codec; algorithm; settings] leaves)].
      * apply In_, G.
      * destruct G as (_ & _ & [P|P] & Nu); (split; [|exact Nu]); [now left|right; apply Il; revert P; now apply (incl_b [file_name; file_contents] leaves)].
      * apply In_, G.
      * destruct G as (_ & _ & [P|[]] & Nu); (split; [|exact Nu]); now left.
    + constructor; [|constructor]. cbn [kinds]. split; [now right|]. intros [X|X]; rewrite X in I; destruct I as [I|[I|[I|[]]]]; discriminate I.
Qed.
Lemma kinds_plain (l k : list bytes) id : (plain id \/ In id l) -> forallb (fun x => existsb (beqb x) special && negb (existsb (beqb x) l)) k = true -> existsb (beqb id) k = false.
Proof.
  intros H F. apply not_true_is_false. intros X. apply existsb_exists in X as (y & Hy & E). apply beqb_eq in E. subst y. rewrite forallb_forall in F. specialize (F _ Hy). apply andb_true_iff in F as (A & B). destruct H as [H|H].
  - apply H. apply existsb_exists in A as (y & Iy & E). apply beqb_eq in E. now subst.
  - apply negb_true_iff in B. assert (existsb (beqb id) l = true); [|congruence]. apply existsb_exists. exists id. split; [exact H|apply beqb_refl].
Qed.
Section Create.
Variables (ap : text) (fd : file_data) (tds : list track_data).
Definition create' (out : bytes) (pos : N) (i : item) : result (bytes * bool) :=
  match i with
  | Open id w n => if beqb id SEGMENT then do x <- resample ap fd tds; Ok (out ++ header id w n ++ x, true) else Ok (out ++ header id w n, true)
  | _ => Ok (out ++ enc true i, true)
  end.
Definition create_opens := [segment; cluster; block_group; attachments; attached].
Lemma create_acts f its : Forall (kinds create_opens (tracks :: leaves)) its -> acts false (create_step ap fd tds f) create' f its.
Proof.
  intros F its1 i its2 a b s Ei Ea E. rewrite Forall_forall in F. specialize (F i). rewrite Ei in F. specialize (F (in_elt i its1 its2)). destruct i as [id w n|id w d|bl].
  - cbn [kinds] in F. unfold create_step, create', id_in, id_is. change (e_id (ek (Open id w n) (lenN a))) with id. rewrite open_data. destruct (beqb id SEGMENT) eqn:Ec.
    + cbv zeta. destruct (resample ap fd tds) as [x|e]; [|reflexivity]. cbn [bind fst snd]. now rewrite <- app_assoc.
    + match goal with |- context [existsb (beqb id) ?l] => assert (X : existsb (beqb id) l = true) end; [repeat (destruct F as [<-|F]; [first [reflexivity|discriminate Ec]|]); destruct F|]. rewrite X. reflexivity.
  - destruct F as (F & Nu). unfold create_step, create', id_in, id_is. change (e_id (ek (Leaf id w d) (lenN a))) with id. rewrite (kinds_plain (tracks :: leaves) [CLUSTER; BLOCK_GROUP; ATTACHMENT_LIST; ATTACHMENT] id) by (exact F || reflexivity). rewrite <- (is_in id SEGMENT), (kinds_plain (tracks :: leaves) [SEGMENT] id) by (exact F || reflexivity).
    change (e_block (ek (Leaf id w d) (lenN a))) with (@None block). cbv iota zeta. rewrite (leaf_read f a b false id w d E) by discriminate. rewrite (leaf_skip a false id w d) by discriminate. cbn [fst snd bind]. change (e_header (ek (Leaf id w d) (lenN a))) with (header id w (lenN d)).
    cbn [enc]. unfold is_data. change file_contents with ATTACHED_FILE_DATA. destruct (beqb id ATTACHED_FILE_DATA); cbn [andb]; [now rewrite app_nil_r|now rewrite <- app_assoc].
  - cbn [kinds] in F. unfold create_step, create', id_in, id_is. change (e_id (ek (Blk bl) (lenN a))) with (k_id bl). rewrite (blk_plain bl F) by reflexivity. rewrite <- (is_in (k_id bl) SEGMENT), <- (is_in (k_id bl) ATTACHED_FILE_DATA), !(blk_plain bl F) by reflexivity.
    rewrite blk_skip. cbn [ek e_block b_header e_header bind fst snd enc]. now rewrite app_nil_r, <- app_assoc.
Qed.
Lemma create_run its : (forall w n, ~ In (Open segment w n) its) -> forall pos out, irun false never create' its pos out = Ok (out ++ encs true its).
Proof.
  induction its as [|i its IH]; intros H pos out; cbn [irun]; [now rewrite app_nil_r|]. change (never out) with false. cbv iota. rewrite encs_cons, app_assoc.
  assert (E : create' out pos i = Ok (out ++ enc true i, true)).
  { destruct i as [id w n|id w d|b]; try reflexivity. cbn [create']. destruct (beqb id SEGMENT) eqn:X; [|reflexivity]. apply beqb_eq in X. exfalso. apply (H w n). left. now rewrite X. }
  rewrite E. cbn [bind snd fst]. apply IH. intros w n X. apply (H w n). now right.
Qed.
End Create.
Lemma tracks_whole its : Forall (group_ok tracks) its -> encs true its = bytes_of its.
Proof.
  intros F. rewrite <- encs_false. unfold encs. f_equal. apply map_ext_in. intros i Hi. rewrite Forall_forall in F. specialize (F i Hi). destruct F as [(_ & G) | [(X & _) | (X & _)]]; try discriminate X. destruct i as [id w n|id w d|b]; try reflexivity.
  - cbn [enc]. cbn [item_ok] in G. destruct G as (_ & _ & G & _). replace (is_data id) with false; [reflexivity|]. symmetry. unfold is_data. rewrite <- is_in. apply (kinds_plain [track_number; codec; algorithm; settings] _ id); [exact G|reflexivity].
  - destruct G as ([] & _).
Qed.
Lemma create_view ps : Forall part_ok ps -> forall pos, encs true (looks (in_groups [cluster; attachments]) pos ps) = encs true (all_items ps).
Proof.
  induction 1 as [|p ps H _ IH]; intros pos; [reflexivity|]. cbn [looks]. rewrite encs_app, IH, all_cons, encs_app. f_equal. destruct p as [i|id w its]; [reflexivity|]. cbn [look in_groups]. destruct (existsb (beqb id) [cluster; attachments]) eqn:E; [reflexivity|].
  cbn [part_ok] in H. destruct H as (I & _ & G & _). destruct I as [<-|[<-|[<-|[]]]]; try discriminate E. cbn [items_of]. rewrite !encs_cons. cbn [encs map concat]. rewrite app_nil_r. cbn [enc]. change (is_data tracks) with false. cbn [andb]. f_equal. symmetry. now apply tracks_whole.
Qed.
Lemma looks_app inside a b : forall pos, looks inside pos (a ++ b) = looks inside pos a ++ looks inside (pos + lenN (file_of a)) b.
Proof.
  induction a as [|p a IH]; intros pos; [now rewrite N.add_0_r|]. cbn [app looks]. rewrite IH, <- app_assoc. do 3 f_equal. unfold file_of. rewrite all_cons, bytes_app, lenN_app. lia.
Qed.
Lemma no_segment ps : Forall part_ok ps -> (forall w size, ~ In (One (Open segment w size)) ps) -> forall inside pos w n, ~ In (Open segment w n) (looks inside pos ps).
Proof.
  intros F H inside. induction F as [|p ps Hp _ IH]; intros pos w n X; [destruct X|]. cbn [looks] in X. apply in_app_or in X as [X|X].
  - destruct p as [i|id w' its]; cbn [look] in X.
    + destruct X as [->|[]]. apply (H w n). now left.
    + cbn [part_ok] in Hp. destruct Hp as (I & _ & G & _). destruct (inside pos (Group id w' its)).
      * destruct X as [X|X]; [injection X as X _ _; rewrite X in I; destruct I as [I|[I|[I|[]]]]; discriminate I|]. rewrite Forall_forall in G. specialize (G _ X). destruct G as [(_ & G) | [(_ & G) | (_ & G)]]; cbn [item_ok] in G; destruct G as (G & _); repeat (destruct G as [G|G]; [discriminate G|]); destruct G.
      * destruct X as [X|[]]. discriminate X.
  - revert X. apply IH. intros w' size Y. apply (H w' size). now right.
Qed.
Lemma ebml_inv id d y : ebml_element id d = Ok y -> exists w, vint_ok w (lenN d) /\ y = item_bytes (Leaf id w d).
Proof.
  unfold ebml_element. intros H. bindinv H. apply ok_inj in H. subst y. destruct (N.lt_ge_cases (lenN d) (2 ^ 49)) as [L|L]; [|rewrite make_large in E by exact L; discriminate]. destruct (make_thm (lenN d) L) as (w & M & V & _). rewrite M in E. apply ok_inj in E. subst v. exists w. split; [exact V|]. cbn [item_bytes]. unfold header. now rewrite <- app_assoc.
Qed.
Definition track_leaf (t : track_data) (i : item) : Prop := exists w d, i = Leaf RESAMPLE_TRACK w d /\ vint_ok w (lenN d) /\ serialize_track t = Ok d.
Lemma resample_is ap fd tds x : resample ap fd tds = Ok x -> exists wr w0 d0 ls, let added := Leaf RESAMPLE_FILE w0 d0 :: ls in
  vint_ok wr (lenN (bytes_of added)) /\ x = bytes_of (Open RESAMPLE wr (lenN (bytes_of added)) :: added) /\ serialize_file ap fd = Ok d0 /\ vint_ok w0 (lenN d0) /\ Forall2 track_leaf tds ls.
Proof.
  unfold resample. intros H. bindinv H. bindinv E. apply ebml_inv in E as (w0 & V0 & ->). bindinv H.
  assert (L : exists ls, Forall2 track_leaf tds ls /\ concat v = bytes_of ls).
  { clear - E. revert v E. induction tds as [|t l IH]; intros v E; cbn [mapR] in E; [apply ok_inj in E; subst v; exists []; split; [constructor|reflexivity]|]. bindinv E. bindinv E0. bindinv E. apply ok_inj in E. subst v. destruct (IH v2 E2) as (ls & F & Ec).
    apply ebml_inv in E0 as (w & V & ->). exists (Leaf RESAMPLE_TRACK w v1 :: ls). split; [constructor; [now exists w, v1|exact F]|]. cbn [concat]. rewrite Ec. reflexivity. }
  destruct L as (ls & F & Ec). apply ebml_inv in H as (wr & V & ->). match goal with X : serialize_file _ _ = Ok ?d |- _ => exists wr, w0, d, ls end. cbv zeta. rewrite Ec in *. split; [exact V|]. split; [reflexivity|]. split; [assumption|]. now split.
Qed.
Lemma srs_eq ap name big offset ps a w size b ts : Forall part_ok ps -> ps = a ++ One (Open segment w size) :: b -> Forall (fun p => exists id w d, p = One (Leaf id w d)) a -> (forall w size, ~ In (One (Open segment w size)) b) ->
  mkv_profile name (file_of ps) = Ok (fd_of name (file_of ps), ts) -> ts <> [] ->
  mkv_srs ap name big offset (file_of ps) = do x <- resample ap (fd_of name (file_of ps)) (map (stored_track big offset) ts); Ok (encs true (all_items a) ++ header segment w size ++ x ++ encs true (all_items b)).
Proof.
  intros F Ep Ha Hb P Nt. destruct (parts_syn ps F) as (Ps & So). unfold mkv_srs. rewrite P. cbn [bind fst snd].
  transitivity (ebml_run false never (create_step ap (fd_of name (file_of ps)) (map (stored_track big offset) ts) (file_of ps)) (file_of ps) []); [now destruct ts|].
  set (view := looks (in_groups [cluster; attachments]) 0 ps). set (cr := create' ap (fd_of name (file_of ps)) (map (stored_track big offset) ts)).
  assert (R : ebml_run false never (create_step ap (fd_of name (file_of ps)) (map (stored_track big offset) ts) (file_of ps)) (file_of ps) [] = irun false never cr view 0 []).
  { apply (run_items false false never _ cr (file_of ps) view []).
    - rewrite app_nil_r. unfold view. rewrite encs_false. symmetry. apply looks_bytes.
    - reflexivity.
    - now apply looks_syn.
    - discriminate.
    - apply create_acts. apply looks_kinds; [exact F|now left|intros y Hy; now right|]. intros pos id w' its I. cbn [in_groups]. destruct I as [<-|[<-|[<-|[]]]]; cbn [existsb beqb]; vm_compute; tauto. }
  rewrite R. clear R.
  assert (Fa : Forall part_ok a /\ Forall part_ok b) by (rewrite Ep in F; apply Forall_app in F as (Fa & Fb); inversion Fb; now split).
  assert (Na : forall inside pos w n, ~ In (Open segment w n) (looks inside pos a)).
  { apply no_segment; [apply Fa|]. intros w' n X. rewrite Forall_forall in Ha. destruct (Ha _ X) as (id & w1 & d & Y). discriminate Y. }
  assert (Sp : forall its1 its2 pos out, (forall w n, ~ In (Open segment w n) its1) -> irun false never cr (its1 ++ its2) pos out = irun false never cr its2 (pos + lenN (encs false its1)) (out ++ encs true its1)).
  { clear. induction its1 as [|i its1 IH]; intros its2 pos out Hn; [cbn [app encs map concat]; now rewrite N.add_0_r, app_nil_r|]. cbn [app irun]. change (never out) with false. cbv iota.
    assert (E : cr out pos i = Ok (out ++ enc true i, true)).
    { destruct i as [id w n|id w d|bl]; try reflexivity. unfold cr. cbn [create']. destruct (beqb id SEGMENT) eqn:X; [|reflexivity]. apply beqb_eq in X. exfalso. apply (Hn w n). left. now rewrite X. }
    rewrite E. cbn [bind snd fst]. rewrite IH by (intros w n X; apply (Hn w n); now right). rewrite !encs_cons, lenN_app, <- app_assoc. now rewrite N.add_assoc. }
  unfold view. set (fd := fd_of name (file_of ps)) in *. rewrite Ep, looks_app. rewrite Sp by apply Na. cbn [looks look app irun]. match goal with |- context [never ?x] => change (never x) with false end. cbv iota. cbn [app]. unfold cr at 1. cbn [create']. change (beqb segment SEGMENT) with true. cbv iota.
  destruct (resample ap fd (map (stored_track big offset) ts)) as [x|e] eqn:Rs; [|reflexivity]. cbn [bind fst snd]. unfold cr. rewrite create_run by (apply no_segment; [apply Fa|exact Hb]). rewrite !create_view by apply Fa. now rewrite <- !app_assoc.
Qed.
Lemma srs_form ap name big offset ps : mkv_ok ps -> forall srs, mkv_srs ap name big offset (file_of ps) = Ok srs -> exists ts a w size b x,
  ps = a ++ One (Open segment w size) :: b /\ Forall (fun p => exists id w d, p = One (Leaf id w d)) a /\ (forall w size, ~ In (One (Open segment w size)) b) /\
  tracked (all_items ps) ts /\ ts <> [] /\ resample ap (fd_of name (file_of ps)) (map (stored_track big offset) ts) = Ok x /\
  srs = encs true (all_items a) ++ header segment w size ++ x ++ encs true (all_items b).
Proof.
  intros H srs E. destruct H as (F & (a & w & size & b & Ep & Ha & Hb) & _). pose proof (profile_is name ps F) as P. destruct (mkv_profile name (file_of ps)) as [(fd, ts)|e] eqn:Pr; [|unfold mkv_srs in E; rewrite Pr in E; discriminate]. destruct P as (-> & T).
  assert (Nt : ts <> []) by (intros ->; unfold mkv_srs in E; rewrite Pr in E; discriminate E). rewrite (srs_eq ap name big offset ps a w size b ts F Ep Ha Hb Pr Nt) in E. bindinv E. apply ok_inj in E. subst srs.
  exists ts, a, w, size, b, v. split; [exact Ep|]. split; [exact Ha|]. split; [exact Hb|]. split; [exact T|]. split; [exact Nt|]. split; [assumption|reflexivity].
Qed.
