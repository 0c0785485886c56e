(** MkvFind: searching for the data of a sample in the main file. *)
From Verif Require Import Base BaseFacts Crc CrcFacts SrsRec SrsRecSpec SrsRecFacts Srs SrrFacts Ebml EbmlSpec EbmlFacts Mkv StrmSpec Mp3Spec MkvSpec MkvRead MkvSrs MkvLoad MkvOut.

(** ** The tracks of the main file *)
Definition mstep (m : mains) (i : item) : result mains :=
  match i with
  | Leaf id _ d => if existsb (beqb id) in_tracks then main_track m id d else if beqb id TRACKCODEC then do _ <- get N.eqb (mm_cur m) (mm_strip m); Ok m else Ok m
  | _ => Ok m
  end.
Fixpoint msteps (m : mains) (its : list item) : result mains := match its with [] => Ok m | i :: its => do m <- mstep m i; msteps m its end.
Definition mains_after (its : list item) (m m' : mains) : Prop :=
  forall n, (forall x, get N.eqb n (mm_strip m) = Ok x -> get N.eqb n (mm_strip m') = Ok (removed n (Some (mm_cur m)) (mm_three m) x its)) /\
            ((forall x, get N.eqb n (mm_strip m) <> Ok x) -> listed n its -> get N.eqb n (mm_strip m') = Ok (removed n (Some (mm_cur m)) (mm_three m) [] its)).
Definition numbers (i : item) : Prop := match i with Leaf id _ d => id = track_number \/ id = algorithm -> number_ok d | _ => True end.
Lemma numbered_tail i its : numbered (i :: its) -> (forall n, ~ listed n [i]) -> numbered its.
Proof.
  intros Nu Nl x j y E A. destruct (Nu (i :: x) j y) as (q & Hq); [now rewrite E|exact A|]. change (i :: x) with ([i] ++ x) in Hq. rewrite listed_app in Hq. destruct Hq as [Hq|Hq]; [now destruct (Nl q)|now exists q].
Qed.
Lemma msteps_run its : Forall numbers its -> forall m, (exists x, get N.eqb (mm_cur m) (mm_strip m) = Ok x) \/ numbered its -> exists m', msteps m its = Ok m' /\ mains_after its m m'.
Proof.
  induction 1 as [|i its Hi _ IH]; intros m Hm; cbn [msteps].
  - exists m. split; [reflexivity|]. intros n. cbn [removed]. split; [auto|]. intros _ (w & d & [] & _).
  - assert (Quiet : mstep m i = Ok m -> (forall n, ~ listed n [i]) -> (forall n cur three x, removed n cur three x (i :: its) = removed n cur three x its) -> exists m', (do m0 <- mstep m i; msteps m0 its) = Ok m' /\ mains_after (i :: its) m m').
    { intros E Nl R. rewrite E. cbn [bind]. destruct (IH m) as (m' & E' & A); [destruct Hm as [Hm|Hm]; [now left|right; now apply (numbered_tail i)]|]. exists m'. split; [exact E'|]. intros n. rewrite !R. destruct (A n) as (A1 & A2). split; [intros x; rewrite R; apply A1|]. intros X Hl. apply A2; [exact X|]. change (i :: its) with ([i] ++ its) in Hl. rewrite listed_app in Hl. destruct Hl as [Hl|Hl]; [now destruct (Nl n)|exact Hl]. }
    destruct i as [id w n|id w d|b]; [apply Quiet; try reflexivity; intros n'; apply listed_open| |apply Quiet; try reflexivity; intros n'; apply listed_blk].
    cbn [mstep] in *. cbn [numbers] in Hi.
    destruct (beqb id TRACKNUMBER) eqn:C1.
    { assert (Ex : existsb (beqb id) in_tracks = true) by (unfold in_tracks; cbn [existsb]; now rewrite C1). rewrite Ex. unfold main_track. rewrite C1. apply beqb_eq in C1. rewrite number_is by (apply Hi; left; exact C1). cbn [bind].
      set (m1 := mkM (with_key N.eqb (unbe d) [] (mm_strip m)) (unbe d) (mm_three m)). destruct (IH m1) as (m' & E' & A).
      { left. cbn [mm_cur mm_strip m1]. rewrite (get_with_key N.eqb N.eqb_eq), N.eqb_refl. destruct (get N.eqb (unbe d) (mm_strip m)) as [x|e]; [now exists x|now exists []]. }
      exists m'. split; [exact E'|]. intros q. assert (R : forall x, removed q (Some (mm_cur m)) (mm_three m) x (Leaf id w d :: its) = removed q (Some (unbe d)) (mm_three m) x its) by (intros x; cbn [removed]; now rewrite C1). destruct (A q) as (A1 & A2). cbn [mm_cur mm_three mm_strip m1] in *. rewrite (get_with_key N.eqb N.eqb_eq) in A1, A2. split.
      - intros x G. rewrite R. apply A1. now rewrite G.
      - intros X Hl. rewrite R. destruct (get N.eqb q (mm_strip m)) as [x|e] eqn:G; [now destruct (X x)|]. destruct (N.eqb_spec (unbe d) q) as [Eq|Nq]; [now apply A1|]. apply A2; [discriminate|]. change (Leaf id w d :: its) with ([Leaf id w d] ++ its) in Hl. rewrite listed_app, listed_one in Hl. destruct Hl as [(_ & Hl)|Hl]; [contradiction|exact Hl]. }
    assert (Nl : forall n, ~ listed n [Leaf id w d]) by (intros n; rewrite listed_one; intros (-> & _); discriminate C1).
    assert (Cur : about_track (Leaf id w d) -> exists x, get N.eqb (mm_cur m) (mm_strip m) = Ok x).
    { intros Ab. destruct Hm as [Hm|Hm]; [exact Hm|]. destruct (Hm [] (Leaf id w d) its eq_refl Ab) as (q & w' & d' & [] & _). }
    destruct (beqb id COMPRESSIONALGORITHM) eqn:C2.
    { assert (Ex : existsb (beqb id) in_tracks = true) by (unfold in_tracks; cbn [existsb]; now rewrite C1, C2). rewrite Ex. unfold main_track. rewrite C1, C2. apply beqb_eq in C2. rewrite number_is by (apply Hi; right; exact C2). cbn [bind].
      destruct (IH (mkM (mm_strip m) (mm_cur m) (unbe d =? 3))) as (m' & E' & A); [left; cbn [mm_cur mm_strip]; apply Cur; cbn [about_track]; rewrite C2; right; now left|]. exists m'. split; [exact E'|]. intros q. destruct (A q) as (A1 & A2). cbn [mm_cur mm_three mm_strip] in *.
      assert (R : forall x, removed q (Some (mm_cur m)) (mm_three m) x (Leaf id w d :: its) = removed q (Some (mm_cur m)) (unbe d =? 3) x its) by (intros x; cbn [removed]; change track_number with TRACKNUMBER; rewrite C1; rewrite C2; reflexivity). split; [intros x G; rewrite R; now apply A1|]. intros X Hl. rewrite R. apply A2; [exact X|].
      change (Leaf id w d :: its) with ([Leaf id w d] ++ its) in Hl. rewrite listed_app in Hl. destruct Hl as [Hl|Hl]; [now destruct (Nl q)|exact Hl]. }
    destruct (beqb id COMPRESSIONSETTINGS) eqn:C3.
    { assert (Ex : existsb (beqb id) in_tracks = true) by (unfold in_tracks; cbn [existsb]; now rewrite C1, C2, C3). rewrite Ex in *. unfold main_track in *. rewrite C1, C2 in *. destruct (Cur ltac:(cbn [about_track]; apply beqb_eq in C3; rewrite C3; right; right; now left)) as (old & Go).
      assert (R : forall q x, removed q (Some (mm_cur m)) (mm_three m) x (Leaf id w d :: its) = removed q (Some (mm_cur m)) (mm_three m) (if mm_three m && (mm_cur m =? q) then d else x) its).
      { intros q x. cbn [removed]. change track_number with TRACKNUMBER. change algorithm with COMPRESSIONALGORITHM. change settings with COMPRESSIONSETTINGS. now rewrite C1, C2, C3. }
      destruct (mm_three m) eqn:Th.
      - rewrite Go. cbn [bind]. destruct (IH (mkM (put N.eqb (mm_cur m) d (mm_strip m)) (mm_cur m) true)) as (m' & E' & A); [left; cbn [mm_cur mm_strip]; rewrite (get_put_same N.eqb N.eqb_eq); now exists d|]. exists m'. split; [exact E'|]. intros q. rewrite Th. destruct (A q) as (A1 & A2). cbn [mm_cur mm_three mm_strip] in *. split.
        + intros x G. rewrite R. cbn [andb]. destruct (N.eqb_spec (mm_cur m) q) as [Eq|Nq]; [rewrite <- Eq in *; apply A1; apply (get_put_same N.eqb N.eqb_eq)|]. apply A1. rewrite (get_put_other N.eqb N.eqb_eq) by congruence. exact G.
        + intros X Hl. rewrite R. cbn [andb]. destruct (N.eqb_spec (mm_cur m) q) as [Eq|Nq]; [rewrite <- Eq in X; now destruct (X old)|]. apply A2; [rewrite (get_put_other N.eqb N.eqb_eq) by congruence; exact X|].
          change (Leaf id w d :: its) with ([Leaf id w d] ++ its) in Hl. rewrite listed_app in Hl. destruct Hl as [Hl|Hl]; [now destruct (Nl q)|exact Hl].
      - cbn [bind]. destruct (IH m (or_introl (ex_intro _ old Go))) as (m' & E' & A). exists m'. split; [exact E'|]. intros q. rewrite Th. destruct (A q) as (A1 & A2). rewrite Th in *. split; [intros x G; rewrite R; cbn [andb]; now apply A1|]. intros X Hl. rewrite R. cbn [andb]. apply A2; [exact X|].
        change (Leaf id w d :: its) with ([Leaf id w d] ++ its) in Hl. rewrite listed_app in Hl. destruct Hl as [Hl|Hl]; [now destruct (Nl q)|exact Hl]. }
    assert (Ex : existsb (beqb id) in_tracks = false) by (unfold in_tracks; cbn [existsb]; now rewrite C1, C2, C3). rewrite Ex in *.
    assert (R : forall n cur three x, removed n cur three x (Leaf id w d :: its) = removed n cur three x its).
    { intros n cur three x. cbn [removed]. change track_number with TRACKNUMBER. change algorithm with COMPRESSIONALGORITHM. change settings with COMPRESSIONSETTINGS. now rewrite C1, C2, C3. }
    apply Quiet; [|exact Nl|exact R]. destruct (beqb id TRACKCODEC) eqn:C4; [|reflexivity]. destruct (Cur ltac:(cbn [about_track]; apply beqb_eq in C4; rewrite C4; now left)) as (old & Go). rewrite Go. reflexivity.
Qed.

(** ** A run in two parts *)
Lemma irun_split {S} srs stop (act' : S -> N -> item -> result (S * bool)) its2 : (forall s pos i x, act' s pos i = Ok x -> snd x = true) -> forall its1 pos s,
  irun srs stop act' (its1 ++ its2) pos s = do s' <- irun srs stop act' its1 pos s; irun srs stop act' its2 (pos + lenN (encs srs its1)) s'.
Proof.
  intros Hn. induction its1 as [|i its1 IH]; intros pos s; cbn [irun app bind]; [now rewrite N.add_0_r|]. destruct (stop s) eqn:St.
  - cbn [bind]. destruct its2; cbn [irun]; [reflexivity|now rewrite St].
  - destruct (act' s pos i) as [x|e] eqn:E; [|reflexivity]. cbn [bind]. rewrite (Hn s pos i x E), IH, encs_cons, lenN_app, N.add_assoc. reflexivity.
Qed.

(** ** The steps *)
Definition find' (cut : list N) (s : fstate) (pos : N) (i : item) : result (fstate * bool) :=
  match i with
  | Open _ _ _ => Ok (s, true)
  | Leaf id _ d =>
    if existsb (beqb id) in_tracks then do m <- main_track (f_main s) id d; Ok (mkF (f_tracks s) m (if beqb id TRACKNUMBER then false else f_done s), true)
    else if beqb id TRACKCODEC then do _ <- get N.eqb (mm_cur (f_main s)) (mm_strip (f_main s)); Ok (s, true)
    else Ok (s, true)
  | Blk b =>
    let k := k_no b in
    let ts := with_key N.eqb k (new_mtrack k) (f_tracks s) in
    let m := mkM (with_key N.eqb k [] (mm_strip (f_main s))) (mm_cur (f_main s)) (mm_three (f_main s)) in
    do t <- get N.eqb k ts;
    do strip <- get N.eqb k (mm_strip m);
    let same := beqb (m_strip t) strip in
    let forsample := if same then [] else strip in
    let formain := if same then [] else m_strip t in
    if searching t then
      Ok (mkF (put N.eqb k (find_frames (ek (Blk b) pos) (concat (k_frames b)) forsample formain (map Z.of_N (map lenN (k_frames b))) 0 t) ts) m (f_done s), true)
    else if counting t then
      let ts := put N.eqb k (count_match t (Z.of_N (lenN (concat (k_frames b))))) ts in
      Ok (mkF ts m (all_found ts), true)
    else Ok (mkF ts m (f_done s), true)
  end.
Lemma find_goes cut s pos i x : find' cut s pos i = Ok x -> snd x = true.
Proof.
  destruct i as [id w n|id w d|b]; cbn [find']; [intros H; apply ok_inj in H; now subst| |].
  - destruct (existsb _ _); [intros H; bindinv H; apply ok_inj in H; now subst|]. destruct (beqb _ _); intros H; [bindinv H|]; apply ok_inj in H; now subst.
  - cbv zeta. intros H. bindinv H. bindinv H. destruct (searching _); [apply ok_inj in H; now subst|]. destruct (counting _); apply ok_inj in H; now subst.
Qed.
Definition find_opens := [segment; block_group; tracks; track_entry; encodings; encoding; compression; cluster].
Lemma find_acts cut f its : Forall (kinds find_opens (attachments :: leaves)) its -> acts false (find_step cut f) (find' cut) f its.
Proof.
  intros F its1 i its2 a b s Ei Ea E. rewrite Forall_forall in F. specialize (F i). rewrite Ei in F. specialize (F (in_elt i its1 its2)). destruct i as [id w n|id w d|bl].
  - cbn [kinds] in F. unfold find_step, find', id_in, id_is. change (e_id (ek (Open id w n) (lenN a))) with id. rewrite open_data.
    match goal with |- context [existsb (beqb id) ?l] => assert (X : existsb (beqb id) l = true) by (apply existsb_exists; exists id; split; [exact F|apply beqb_refl]) end. rewrite X. reflexivity.
  - destruct F as (F & Nu). unfold find_step, find', id_in, id_is. change (e_id (ek (Leaf id w d) (lenN a))) with id.
    rewrite (kinds_plain (attachments :: leaves) [SEGMENT; BLOCK_GROUP; TRACKLIST; TRACK; CONTENTENCODINGLIST; CONTENTENCODING; COMPRESSION; CLUSTER] id) by (exact F || reflexivity).
    change (e_block (ek (Leaf id w d) (lenN a))) with (@None block). cbv iota. rewrite (leaf_read f a b false id w d E) by discriminate. rewrite (leaf_skip a false id w d) by discriminate. cbv zeta. cbn [fst snd].
    destruct (existsb (beqb id) in_tracks); [destruct (main_track (f_main s) id d); reflexivity|]. destruct (beqb id TRACKCODEC); [destruct (get N.eqb _ _); reflexivity|reflexivity].
  - cbn [kinds] in F. unfold find_step, find', id_in, id_is. change (e_id (ek (Blk bl) (lenN a))) with (k_id bl). rewrite (blk_plain bl F) by reflexivity.
    unfold find_block. rewrite (blk_read f a b bl E), blk_skip. cbn [fst snd]. change (e_length (ek (Blk bl) (lenN a))) with (Z.of_N (lenN (concat (k_frames bl)))). remember (ek (Blk bl) (lenN a)) as e eqn:Ee. replace (e_block e) with (Some (mkB (k_no bl) (map Z.of_N (map lenN (k_frames bl))) (blk_head bl) false)) by (now rewrite Ee). cbv zeta. cbn [b_track b_frames].
    destruct (get N.eqb (k_no bl) (with_key N.eqb (k_no bl) (new_mtrack (k_no bl)) (f_tracks s))) as [t|x]; [|reflexivity]. cbn [bind]. destruct (get N.eqb (k_no bl) _) as [strip|x]; [|reflexivity]. cbn [bind].
    destruct (searching t); [reflexivity|]. destruct (existsb _ cut); destruct (counting t); reflexivity.
Qed.

(** ** One track *)
Definition fstep (t : mtrack) (f : N * bytes) : mtrack :=
  let sig := td_signature (m_td t) in
  let t :=
    if (0 <? lenN (m_check t)) && (lenN (m_check t) <? lenN sig) then
      let c := takeN (lenN sig) (m_check t ++ snd f) in
      if starts_with Byte.eqb c sig then set_match t (m_offset t) (m_match t) c else set_match t 0 0 []
    else t in
  match m_check t with
  | [] => let c := takeN (lenN sig) (snd f) in if starts_with Byte.eqb c sig then set_match t (fst f) (Z.min (Z.of_N (td_length (m_td t))) (Z.of_N (lenN (snd f)))) c else t
  | _ => count_match t (Z.of_N (lenN (snd f)))
  end.
Lemma slice_mid (p y v : bytes) (i j : Z) : i = Z.of_N (lenN p) -> (i <= j)%Z -> (j - i <= Z.of_N (lenN y))%Z -> slice i j (p ++ y ++ v) = takeN (Z.to_N (j - i)) y.
Proof.
  intros -> H1 H2. unfold slice, bound. rewrite !lenN_app. replace (Z.of_N (lenN p) <? 0)%Z with false by lia. replace (j <? 0)%Z with false by lia. rewrite N2Z.id. rewrite !N.min_l by lia. unfold sub. rewrite dropN_app_exact by reflexivity. rewrite takeN_app_le by lia. f_equal. lia.
Qed.
Lemma frame_is e (u fm y v : bytes) t : find_frame e (u ++ (fm ++ y) ++ v) [] fm t (Z.of_N (lenN u)) (Z.of_N (lenN (fm ++ y))) = fstep t (e_data e + lenN u, y).
Proof.
  unfold find_frame, fstep. cbv zeta. cbn [fst snd app lenN length]. rewrite lenN_app. replace (Z.of_N (lenN fm + lenN y) + Z.of_N 0 - Z.of_N (lenN fm))%Z with (Z.of_N (lenN y)) by lia.
  replace (u ++ (fm ++ y) ++ v) with ((u ++ fm) ++ y ++ v) by now rewrite <- !app_assoc. set (sig := td_signature (m_td t)).
  assert (Sl : forall k, (0 <= k)%Z -> (k <= Z.of_N (lenN y))%Z -> forall j, (j = Z.of_N (lenN u) + Z.of_N (lenN fm) + k)%Z -> slice (Z.of_N (lenN u) + Z.of_N (lenN fm)) j ((u ++ fm) ++ y ++ v) = takeN (Z.to_N k) y).
  { intros k K1 K2 j ->. rewrite slice_mid by (rewrite ?lenN_app; lia). f_equal. lia. }
  assert (Second : forall t1, m_td t1 = m_td t -> match m_check t1 with
    | [] => if starts_with Byte.eqb (slice (Z.of_N (lenN u) + Z.of_N (lenN fm)) (Z.of_N (lenN u) + Z.of_N (lenN fm) + Z.min (Z.of_N (lenN (td_signature (m_td t)))) (Z.of_N (lenN y)) - Z.of_N 0) ((u ++ fm) ++ y ++ v)) sig then set_match t1 (Z.to_N (Z.of_N (e_data e) + Z.of_N (lenN u))) (Z.min (Z.of_N (td_length (m_td t1))) (Z.of_N (lenN y))) (slice (Z.of_N (lenN u) + Z.of_N (lenN fm)) (Z.of_N (lenN u) + Z.of_N (lenN fm) + Z.min (Z.of_N (lenN (td_signature (m_td t)))) (Z.of_N (lenN y)) - Z.of_N 0) ((u ++ fm) ++ y ++ v)) else t1
    | _ :: _ => count_match t1 (Z.of_N (lenN y)) end = match m_check t1 with
    | [] => if starts_with Byte.eqb (takeN (lenN sig) y) sig then set_match t1 (e_data e + lenN u) (Z.min (Z.of_N (td_length (m_td t1))) (Z.of_N (lenN y))) (takeN (lenN sig) y) else t1
    | _ :: _ => count_match t1 (Z.of_N (lenN y)) end).
  { intros t1 _. destruct (m_check t1); [|reflexivity]. rewrite (Sl (Z.min (Z.of_N (lenN sig)) (Z.of_N (lenN y)))) by (unfold sig; lia). replace (takeN (Z.to_N (Z.min (Z.of_N (lenN sig)) (Z.of_N (lenN y)))) y) with (takeN (lenN sig) y); [|destruct (N.le_gt_cases (lenN sig) (lenN y)); [f_equal; lia|now rewrite !takeN_all by lia]]. now replace (Z.to_N (Z.of_N (e_data e) + Z.of_N (lenN u))) with (e_data e + lenN u) by lia. }
  destruct ((0 <? lenN (m_check t)) && (lenN (m_check t) <? lenN sig)) eqn:C; [|now apply Second]. apply andb_true_iff in C as (C1 & C2).
  rewrite (Sl (Z.min (Z.of_N (lenN sig)) (Z.of_N (lenN y) + Z.of_N (lenN (m_check t))) - Z.of_N (lenN (m_check t)))%Z) by lia.
  replace (m_check t ++ takeN (Z.to_N (Z.min (Z.of_N (lenN sig)) (Z.of_N (lenN y) + Z.of_N (lenN (m_check t))) - Z.of_N (lenN (m_check t)))) y) with (takeN (lenN sig) (m_check t ++ y)).
  - destruct (starts_with Byte.eqb (takeN (lenN sig) (m_check t ++ y)) sig); apply Second; reflexivity.
  - rewrite takeN_app_ge by lia. f_equal. destruct (N.le_gt_cases (lenN sig - lenN (m_check t)) (lenN y)); [f_equal; lia|now rewrite !takeN_all by lia].
Qed.
(** frames as they are in the sample *)
Definition conv (s m fr : bytes) : bytes := dropN (lenN s) (m ++ fr).
Definition convs (s m : bytes) (l : list (N * bytes)) : list (N * bytes) := map (fun f => (fst f, conv s m (snd f))) l.
Lemma frames_are e (fm : bytes) l : forall (u : bytes) t, Forall (fun fr => starts fm fr) l ->
  find_frames e (u ++ concat l) [] fm (map Z.of_N (map lenN l)) (Z.of_N (lenN u)) t = fold_left fstep (convs fm [] (placed (e_data e + lenN u) l)) t.
Proof.
  induction l as [|fr l IH]; intros u t F; [reflexivity|]. inversion F as [|? ? (y & ->) F']; subst. cbn [map concat find_frames placed convs fold_left fst snd]. rewrite frame_is. replace (conv fm [] (fm ++ y)) with y by (unfold conv; cbn [app]; symmetry; now apply dropN_app_exact).
  replace (u ++ (fm ++ y) ++ concat l) with ((u ++ fm ++ y) ++ concat l) by now rewrite <- !app_assoc. replace (Z.of_N (lenN u) + Z.of_N (lenN (fm ++ y)))%Z with (Z.of_N (lenN (u ++ fm ++ y))) by (rewrite !lenN_app; lia). rewrite IH by exact F'. rewrite (lenN_app u), N.add_assoc. reflexivity.
Qed.
Lemma joined_app a b : joined (a ++ b) = joined a ++ joined b. Proof. unfold joined. now rewrite map_app, concat_app. Qed.
Lemma starts_with_is a b : starts_with Byte.eqb a b = true <-> starts a b.
Proof.
  revert b. induction a as [|x a IH]; intros b; cbn [starts_with]; [split; [intros _; now exists b|reflexivity]|]. destruct b as [|y b]; [split; [discriminate|intros (r & X); discriminate X]|].
  rewrite andb_true_iff, IH. split.
  - intros (E & (r & ->)). apply Byte.byte_dec_bl in E. subst y. now exists r.
  - intros (r & X). cbn [app] in X. injection X as <- X. split; [now apply Byte.byte_dec_lb|]. now exists r.
Qed.
Lemma starts_take (s u v : bytes) : starts s (u ++ v) -> starts (takeN (lenN s) u) s.
Proof.
  intros (r & E). exists (dropN (lenN u) s). destruct (N.le_gt_cases (lenN s) (lenN u)) as [H|H].
  - rewrite dropN_all by exact H. rewrite app_nil_r. assert (X : takeN (lenN s) (u ++ v) = takeN (lenN s) (s ++ r)) by now rewrite E. rewrite takeN_app_le in X by exact H. rewrite takeN_app_exact in X by reflexivity. now rewrite X.
  - rewrite takeN_all by lia. assert (X : takeN (lenN u) (u ++ v) = takeN (lenN u) (s ++ r)) by now rewrite E. rewrite takeN_app_exact in X by reflexivity. rewrite takeN_app_le in X by lia. rewrite X at 1. symmetry. apply takeN_dropN.
Qed.
Section Track.
Variables (td : track_data) (d : bytes) (o : N) (x : bytes) (a b : list (N * bytes)).
Hypothesis Sg : is_sig (td_signature td) d.
Hypothesis Ln : td_length td = lenN d.
Hypothesis Dn : d <> [].
Hypothesis Xn : x <> [].
Hypothesis St : starts d (x ++ joined b).
Hypothesis Ban : forall a1 y a2, a = a1 ++ y :: a2 -> snd y <> [] -> ~ starts (takeN (lenN (takeN 256 d)) (snd y ++ joined a2 ++ x)) (takeN 256 d).
Definition pend (P : list (N * bytes)) (t : mtrack) : Prop :=
  (m_check t = [] /\ m_match t = 0%Z) \/
  exists p1 y p2, P = p1 ++ y :: p2 /\ snd y <> [] /\ m_check t = snd y ++ joined p2 /\ starts (m_check t) (td_signature td) /\ lenN (m_check t) < lenN (td_signature td) /\ m_match t = Z.of_N (lenN (m_check t)).
Definition tinv (P : list (N * bytes)) (t : mtrack) : Prop :=
  m_td t = td /\ ((exists q, a = P ++ q /\ pend P t) \/
                  (exists p2 q2, P = a ++ (o, x) :: p2 /\ b = p2 ++ q2 /\ m_offset t = o /\ m_check t = takeN (lenN (td_signature td)) (x ++ joined p2))).
Lemma sig_len : 0 < lenN (td_signature td) <= lenN d /\ lenN (takeN 256 d) <= lenN (td_signature td).
Proof using Sg Ln Dn Xn St Ban.
  destruct Sg as ((r & E) & F & _). assert (lenN d <> 0) by (intros X; apply Dn, lenN_0; exact X). destruct (N.lt_ge_cases (lenN (td_signature td)) 256) as [H1|H1].
  - rewrite (F H1), lenN_takeN. split; lia.
  - rewrite lenN_takeN. split; [|lia]. rewrite E, lenN_app. lia.
Qed.
Lemma banned a1 y a2 : a = a1 ++ y :: a2 -> snd y <> [] -> ~ starts (takeN (lenN (td_signature td)) (snd y ++ joined a2 ++ x)) (td_signature td).
Proof using Sg Ln Dn Xn St Ban.
  intros E Hy X. apply (Ban a1 y a2 E Hy). destruct sig_len as (_ & Sl). destruct Sg as ((r & Es) & _). set (w := snd y ++ joined a2 ++ x) in *. set (m := lenN (takeN 256 d)) in *. destruct X as (r' & Er).
  assert (T : takeN 256 d = takeN m (td_signature td)).
  { assert (M : m <= 256) by (unfold m; rewrite lenN_takeN; lia). assert (takeN m d = takeN 256 d) by (destruct (N.le_gt_cases 256 (lenN d)); [f_equal; unfold m; rewrite lenN_takeN; lia|unfold m; rewrite !takeN_all by (rewrite ?takeN_all by lia; lia); reflexivity]). rewrite <- H. rewrite Es at 1. apply takeN_app_le. exact Sl. }
  rewrite T. exists (takeN (m - lenN (takeN (lenN (td_signature td)) w)) r'). transitivity (takeN m (takeN (lenN (td_signature td)) w ++ r')); [f_equal; exact Er|]. rewrite takeN_app. f_equal. rewrite takeN_takeN. f_equal. clear - Sl. lia.
Qed.
Lemma fresh P z q t : a = P ++ z :: q -> m_td t = td -> m_check t = [] -> m_match t = 0%Z ->
  let c := takeN (lenN (td_signature td)) (snd z) in
  pend (P ++ [z]) (if starts_with Byte.eqb c (td_signature td) then set_match t (fst z) (Z.min (Z.of_N (td_length td)) (Z.of_N (lenN (snd z)))) c else t).
Proof using Sg Ln Dn Xn St Ban.
  intros Ea Et Ec Em c. destruct sig_len as (Sl & _). destruct (starts_with Byte.eqb c (td_signature td)) eqn:Sw; [|left; now split]. apply starts_with_is in Sw. assert (Hz : snd z = [] \/ snd z <> []) by (destruct (snd z); [now left|right; discriminate]). destruct Hz as [Hz|Hz].
  - left. cbn [set_match m_check m_match]. split; [unfold c; rewrite Hz; now destruct (lenN (td_signature td))|]. rewrite Hz. cbn [lenN]. lia.
  - right. exists P, z, []. assert (Lc : lenN (snd z) < lenN (td_signature td)).
    { apply N.nle_gt. intros H. apply (banned P z q Ea Hz). rewrite takeN_app_le by exact H. exact Sw. }
    assert (Cz : c = snd z) by (apply takeN_all; lia). cbn [set_match m_check m_match]. rewrite Cz in *. split; [reflexivity|]. split; [exact Hz|]. split; [unfold joined; cbn [map concat]; now rewrite app_nil_r|]. split; [exact Sw|]. split; [exact Lc|]. rewrite Ln. lia.
Qed.
Lemma begun t : m_td t = td -> m_check t = [] -> let c := takeN (lenN (td_signature td)) x in starts_with Byte.eqb c (td_signature td) = true /\ c <> [].
Proof using Sg Ln Dn Xn St Ban.
  intros Et Ec c. destruct sig_len as (Sl & _). split.
  - apply starts_with_is. destruct St as (r & E). destruct Sg as ((r2 & Es) & _). apply (starts_take _ x (joined b)). exists (r2 ++ r). rewrite E, Es at 1. now rewrite <- app_assoc.
  - intros X. assert (lenN c = 0) by now rewrite X. unfold c in H. rewrite lenN_takeN in H. assert (lenN x <> 0) by (intros Y; apply Xn, lenN_0; exact Y). lia.
Qed.
Lemma tinv_step P z Q t : tinv P t -> a ++ (o, x) :: b = P ++ z :: Q -> tinv (P ++ [z]) (fstep t z).
Proof using Sg Ln Dn Xn St Ban.
  intros (Et & H) El. destruct sig_len as (Sl & _). destruct H as [(q & Ea & Pe)|(p2 & q2 & Ep & Eb & Eo & Ec)].
  - destruct q as [|z' q].
    + (* the place *)
      rewrite app_nil_r in Ea. rewrite Ea in El. apply app_inv_head in El. injection El as <- _. unfold fstep. rewrite Et.
      assert (K : forall t1, m_td t1 = td -> m_check t1 = [] -> tinv (P ++ [(o, x)]) (match m_check t1 with [] => if starts_with Byte.eqb (takeN (lenN (td_signature td)) (snd (o, x))) (td_signature td) then set_match t1 (fst (o, x)) (Z.min (Z.of_N (td_length (m_td t1))) (Z.of_N (lenN (snd (o, x))))) (takeN (lenN (td_signature td)) (snd (o, x))) else t1 | _ :: _ => count_match t1 (Z.of_N (lenN (snd (o, x)))) end)).
      { intros t1 T1 C1. rewrite C1. cbn [fst snd]. destruct (begun t1 T1 C1) as (B1 & _). rewrite B1. split; [exact T1|]. right. exists [], b. split; [now rewrite Ea|]. split; [reflexivity|]. cbn [set_match m_offset m_check]. split; [reflexivity|]. unfold joined. cbn [map concat]. now rewrite app_nil_r. }
      destruct Pe as [(C0 & M0)|(p1 & y & p2 & EP & Hy & Ck & Sk & Lk & Mk)].
      * replace (0 <? lenN (m_check t)) with false by (rewrite C0; reflexivity). cbn [andb]. now apply K.
      * assert (0 < lenN (m_check t)) by (rewrite Ck, lenN_app; assert (lenN (snd y) <> 0) by (intros Z0; apply Hy, lenN_0; exact Z0); lia). replace (0 <? lenN (m_check t)) with true by lia. replace (lenN (m_check t) <? lenN (td_signature td)) with true by lia. cbn [andb snd].
        destruct (starts_with Byte.eqb (takeN (lenN (td_signature td)) (m_check t ++ x)) (td_signature td)) eqn:Sw; [exfalso|now apply K]. apply starts_with_is in Sw. apply (banned p1 y p2 (eq_trans Ea EP) Hy). rewrite Ck, <- app_assoc in Sw. exact Sw.
    + (* before it *)
      rewrite Ea, <- app_assoc in El. cbn [app] in El. apply app_inv_head in El. injection El as -> _. split; [unfold fstep; cbv zeta; destruct (_ && _); [destruct (starts_with _ _ _)|]; cbn [set_match m_check m_td]; repeat match goal with |- context [match ?c with [] => _ | _ :: _ => _ end] => destruct c end; try (destruct (starts_with _ _ _)); exact Et|].
      left. exists q. split; [rewrite Ea, <- app_assoc; reflexivity|]. unfold fstep. rewrite Et.
      destruct Pe as [(C0 & M0)|(p1 & y & p2 & EP & Hy & Ck & Sk & Lk & Mk)].
      * replace (0 <? lenN (m_check t)) with false by (rewrite C0; reflexivity). cbn [andb]. rewrite C0. cbv zeta. rewrite Et. now apply (fresh P z q t).
      * assert (0 < lenN (m_check t)) by (rewrite Ck, lenN_app; assert (lenN (snd y) <> 0) by (intros Z0; apply Hy, lenN_0; exact Z0); lia). replace (0 <? lenN (m_check t)) with true by lia. replace (lenN (m_check t) <? lenN (td_signature td)) with true by lia. cbn [andb]. cbv zeta.
        destruct (starts_with Byte.eqb (takeN (lenN (td_signature td)) (m_check t ++ snd z)) (td_signature td)) eqn:Sw.
        -- apply starts_with_is in Sw. right. exists p1, y, (p2 ++ [z]). assert (Ea2 : a = p1 ++ y :: (p2 ++ z :: q)) by (rewrite Ea, EP, <- app_assoc; reflexivity).
           assert (Lc : lenN (m_check t ++ snd z) < lenN (td_signature td)).
           { apply N.nle_gt. intros H0. apply (banned p1 y (p2 ++ z :: q) Ea2 Hy). rewrite joined_app. change (joined (z :: q)) with (snd z ++ joined q). replace (snd y ++ (joined p2 ++ snd z ++ joined q) ++ x) with ((m_check t ++ snd z) ++ joined q ++ x) by (rewrite Ck, <- !app_assoc; reflexivity). rewrite takeN_app_le by exact H0. exact Sw. }
           rewrite takeN_all in * by lia. cbn [set_match m_check]. destruct (m_check t ++ snd z) as [|c0 cr] eqn:Ecz; [exfalso; apply app_eq_nil in Ecz as (Y & _); rewrite Y in H; cbn [lenN] in H; clear - H; lia|]. rewrite <- Ecz in *. cbn [count_match set_match m_check m_match m_td].
           split; [rewrite EP, <- app_assoc; reflexivity|]. split; [exact Hy|]. split; [rewrite joined_app; unfold joined at 2; cbn [map concat]; rewrite app_nil_r, Ck, <- app_assoc; reflexivity|]. split; [exact Sw|]. split; [exact Lc|]. rewrite lenN_app in *. rewrite Et, Mk, Ln. lia.
        -- cbn [set_match m_check m_td]. rewrite Et. exact (fresh P z q (set_match t 0 0 []) Ea Et eq_refl eq_refl).
  - (* behind it *)
    rewrite Ep in El. rewrite <- app_assoc in El. cbn [app] in El. apply app_inv_head in El. injection El as El. rewrite Eb in El. apply app_inv_head in El. subst q2.
    assert (Lx : 0 < lenN x) by (assert (lenN x <> 0) by (intros Y; apply Xn, lenN_0; exact Y); lia).
    assert (Ck0 : m_check t <> []) by (intros X; assert (lenN (m_check t) = 0) by (now rewrite X); rewrite Ec, lenN_takeN, lenN_app in H; lia).
    assert (Ex : joined (p2 ++ [z]) = joined p2 ++ snd z) by (rewrite joined_app; unfold joined at 2; cbn [map concat]; now rewrite app_nil_r).
    split; [unfold fstep; cbv zeta; destruct (_ && _); [destruct (starts_with _ _ _)|]; cbn [set_match m_check m_td]; repeat match goal with |- context [match ?c with [] => _ | _ :: _ => _ end] => destruct c end; try (destruct (starts_with _ _ _)); exact Et|]. right. exists (p2 ++ [z]), Q. split; [rewrite Ep, <- app_assoc; reflexivity|]. split; [rewrite Eb, <- app_assoc; reflexivity|].
    unfold fstep. rewrite Et. cbv zeta. destruct ((0 <? lenN (m_check t)) && (lenN (m_check t) <? lenN (td_signature td))) eqn:C.
    + apply andb_true_iff in C as (C1 & C2). assert (Ew : m_check t = x ++ joined p2) by (rewrite Ec; apply takeN_all; rewrite Ec, lenN_takeN in C2; lia).
      assert (Sw : starts_with Byte.eqb (takeN (lenN (td_signature td)) (m_check t ++ snd z)) (td_signature td) = true).
      { apply starts_with_is. destruct St as (r & E). destruct Sg as ((r2 & Es) & _). apply (starts_take _ _ (joined Q)). exists (r2 ++ r). rewrite Ew. transitivity (x ++ joined b); [rewrite Eb, joined_app; change (joined (z :: Q)) with (snd z ++ joined Q); now rewrite <- !app_assoc|]. rewrite E, Es at 1. now rewrite <- app_assoc. }
      rewrite Sw. cbn [set_match m_check]. destruct (takeN (lenN (td_signature td)) (m_check t ++ snd z)) as [|c0 cr] eqn:Ecz; [assert (X : lenN (takeN (lenN (td_signature td)) (m_check t ++ snd z)) = 0) by (now rewrite Ecz); rewrite lenN_takeN, lenN_app in X; lia|]. rewrite <- Ecz. cbn [count_match set_match m_offset m_check]. split; [exact Eo|]. now rewrite Ex, Ew, <- app_assoc.
    + destruct (m_check t) as [|c0 cr] eqn:Eck; [contradiction|]. rewrite <- Eck in *. cbn [count_match m_offset m_check]. split; [exact Eo|]. rewrite Ex, app_assoc. rewrite takeN_app_le; [exact Ec|]. rewrite Ec, lenN_takeN in C. apply andb_false_iff in C as [C|C]; rewrite ?lenN_app in *; lia.
Qed.
Lemma tinv_steps F : forall P Q t, tinv P t -> a ++ (o, x) :: b = P ++ F ++ Q -> tinv (P ++ F) (fold_left fstep F t).
Proof using Sg Ln Dn Xn St Ban.
  induction F as [|z F IH]; intros P Q t H E; [now rewrite app_nil_r|]. cbn [fold_left]. replace (P ++ z :: F) with ((P ++ [z]) ++ F) by (now rewrite <- app_assoc). apply (IH (P ++ [z]) Q); [|rewrite <- app_assoc; exact E]. apply (tinv_step P z (F ++ Q)); [exact H|exact E].
Qed.
Lemma tinv_count F P Q t n : tinv P t -> searching t = false -> a ++ (o, x) :: b = P ++ F ++ Q -> tinv (P ++ F) (count_match t n) /\ tinv (P ++ F) t.
Proof using Sg Ln Dn Xn St Ban.
  intros (Et & H) Se El. destruct sig_len as (Sl & _). unfold searching in Se. rewrite Et in Se. replace (lenN (td_signature td) =? 0) with false in Se by lia. cbn [negb andb] in Se. apply orb_false_iff in Se as (Se1 & Se2).
  destruct H as [(q & Ea & Pe)|(p2 & q2 & Ep & Eb & Eo & Ec)]; [exfalso; destruct Pe as [(C0 & _)|(p1 & y & p2 & _ & _ & _ & _ & Lk & _)]; [rewrite C0 in Se2; cbn [lenN] in Se2; lia|lia]|].
  rewrite Ep in El. rewrite <- app_assoc in El. cbn [app] in El. apply app_inv_head in El. injection El as El. rewrite Eb in El. apply app_inv_head in El. subst q2.
  assert (K : exists p3 q3, P ++ F = a ++ (o, x) :: p3 /\ b = p3 ++ q3 /\ m_offset t = o /\ m_check t = takeN (lenN (td_signature td)) (x ++ joined p3)).
  { exists (p2 ++ F), Q. split; [rewrite Ep, <- app_assoc; reflexivity|]. split; [rewrite Eb, <- app_assoc; reflexivity|]. split; [exact Eo|]. rewrite joined_app, app_assoc, takeN_app_le; [exact Ec|]. rewrite Ec, lenN_takeN in Se2. lia. }
  split; split; try exact Et; right; exact K.
Qed.
Lemma tinv_found P t : tinv P t -> (m_match t <? Z.of_N (td_length (m_td t)))%Z = false -> m_offset t = o.
Proof using Sg Ln Dn Xn St Ban.
  intros (Et & H) M. destruct sig_len as (Sl & _). destruct H as [(q & Ea & Pe)|(p2 & q2 & _ & _ & Eo & _)]; [|exact Eo]. rewrite Et, Ln in M. destruct Pe as [(_ & M0)|(p1 & y & p2 & _ & _ & _ & _ & Lk & Mk)]; lia.
Qed.
Lemma tinv_end t : tinv (a ++ (o, x) :: b) t -> m_offset t = o.
Proof. intros (_ & [(q & Ea & _)|(p2 & q2 & _ & _ & Eo & _)]); [|exact Eo]. exfalso. assert (X : length a = length ((a ++ (o, x) :: b) ++ q)) by now rewrite <- Ea. rewrite !app_length in X. cbn [length] in X. lia. Qed.
End Track.
