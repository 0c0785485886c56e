(** MkvExtract: the data of the tracks and the attachments are taken from the main file. *)
From Verif Require Import Base BaseFacts Crc CrcFacts SrsRec SrsRecSpec SrsRecFacts Srs SrrFacts Ebml EbmlSpec EbmlFacts Mkv StrmSpec Mp3Spec MkvSpec MkvRead MkvSrs MkvLoad MkvOut MkvFind MkvSearch.
From Verif Require VolFacts.

Definition extract' (s : xstate) (pos : N) (i : item) : result (xstate * bool) :=
  match i with
  | Open _ _ _ => Ok (s, true)
  | Leaf id _ d =>
    if existsb (beqb id) in_tracks then do m <- main_track (x_main s) id d; Ok (mkX (x_tracks s) m (x_atts s) (x_cur s) (if beqb id TRACKNUMBER then false else x_done s), true)
    else if beqb id ATTACHED_FILE_NAME then Ok (mkX (x_tracks s) (x_main s) (with_key beqb d None (x_atts s)) (Some d) (x_done s), true)
    else if beqb id ATTACHED_FILE_DATA then
      match x_cur s with
      | None => Err KeyError
      | Some name => do a <- get beqb name (x_atts s); match a with Some _ => Err AssertionError | None => Ok (mkX (x_tracks s) (x_main s) (put beqb name (Some d) (x_atts s)) (x_cur s) (x_done s), true) end
      end
    else Ok (s, true)
  | Blk b =>
    let k := k_no b in
    match get N.eqb k (x_tracks s) with
    | Err _ => Ok (s, true)
    | Ok t =>
      do strip <- get N.eqb k (mm_strip (x_main s));
      if (Z.of_N (m_offset t) <? Z.of_N (e_data (ek (Blk b) pos)) + Z.of_N (lenN (concat (k_frames b))))%Z then
        let d := match m_file t with Some d => d | None => [] end in
        let d := extract_frames (ek (Blk b) pos) (concat (k_frames b)) strip (m_strip t) (map Z.of_N (map lenN (k_frames b))) 0 t d in
        let ts := put N.eqb k (with_mfile t d) (x_tracks s) in
        Ok (mkX ts (x_main s) (x_atts s) (x_cur s) (forallb (fun t => complete (snd t)) ts), true)
      else Ok (s, true)
    end
  end.
Lemma extract_goes s pos i x : extract' s pos i = Ok x -> snd x = true.
Proof.
  destruct i as [id w n|id w d|b]; cbn [extract']; [intros H; apply ok_inj in H; now subst| |].
  - destruct (existsb _ _); [intros H; bindinv H; apply ok_inj in H; now subst|]. destruct (beqb id ATTACHED_FILE_NAME); [intros H; apply ok_inj in H; now subst|]. destruct (beqb id ATTACHED_FILE_DATA); [|intros H; apply ok_inj in H; now subst]. destruct (x_cur s); [|discriminate]. intros H. destruct (get _ _ _) as [[a|]|]; cbn [bind] in H; try discriminate. apply ok_inj in H. now subst.
  - destruct (get _ _ _); [|intros H; apply ok_inj in H; now subst]. intros H. destruct (get _ _ (mm_strip _)); [|discriminate]. cbn [bind] in H. destruct (_ <? _)%Z; apply ok_inj in H; now subst.
Qed.
(** clusters before [start] are not opened *)
Definition inside (start pos : N) (p : part) : bool :=
  match p with One _ => true | Group id w its => negb (beqb id cluster && (pos + lenN (header id w (lenN (bytes_of its))) + lenN (bytes_of its) <? start)) end.
Definition okat (start pos : N) (i : item) : Prop :=
  match i with
  | Open id w n => id = cluster -> start <= pos + lenN (header id w n) + n
  | Leaf id w d => id = cluster -> pos + lenN (header id w (lenN d)) + lenN d < start
  | Blk _ => True
  end.
Fixpoint all_okat (start pos : N) (its : list item) : Prop := match its with [] => True | i :: its => okat start pos i /\ all_okat start (pos + lenN (item_bytes i)) its end.
Lemma all_okat_app start b : forall a pos, all_okat start pos (a ++ b) <-> all_okat start pos a /\ all_okat start (pos + lenN (bytes_of a)) b.
Proof. induction a as [|i a IH]; intros pos; cbn [app all_okat]; [cbn [bytes_of map concat lenN]; rewrite N.add_0_r; tauto|]. rewrite IH, bytes_cons, lenN_app, N.add_assoc. tauto. Qed.
Lemma looks_okat start ps : Forall part_ok ps -> forall pos, all_okat start pos (looks (inside start) pos ps).
Proof.
  assert (Other : forall its, Forall (fun i => match i with Open id _ _ => id <> cluster | Leaf id _ _ => id <> cluster | Blk _ => True end) its -> forall pos, all_okat start pos its).
  { induction 1 as [|i its H _ IH]; intros pos; [exact I|]. split; [|apply IH]. destruct i; cbn [okat]; try exact I; intros X; contradiction. }
  assert (Pc : forall id, plain id -> id <> cluster) by (intros id P ->; apply P; cbn; tauto).
  induction 1 as [|p ps H _ IH]; intros pos; [exact I|]. cbn [looks]. apply all_okat_app. split; [|rewrite look_bytes; apply IH]. destruct p as [i|id w its]; cbn [inside look].
  - apply Other. constructor; [|constructor]. destruct i as [id w n|id w d|b]; cbn [part_ok item_ok] in H; [destruct H as ([<-|[]] & _); discriminate| |exact I]. destruct H as (_ & _ & [P|[]] & _). now apply Pc.
  - cbn [part_ok] in H. destruct H as (Id & _ & G & _). destruct (beqb id cluster && _) eqn:E; cbn [negb].
    + split; [|exact I]. cbn [okat]. intros _. apply andb_true_iff in E as (_ & E). lia.
    + split; [cbn [okat]; intros ->; change (beqb cluster cluster) with true in E; cbn [andb] in E; lia|]. apply Other. eapply Forall_impl; [|exact G]. intros i [(-> & Gi) | [(-> & Gi) | (-> & Gi)]]; destruct i as [id' w' n|id' w' d|b]; cbn [item_ok] in Gi; try exact I; destruct Gi as (G1 & G2).
      * intros ->. repeat (destruct G1 as [G1|G1]; [discriminate G1|]). destruct G1.
      * destruct G2 as (_ & [P|P] & _); [now apply Pc|]. intros ->. repeat (destruct P as [P|P]; [discriminate P|]). destruct P.
      * intros ->. repeat (destruct G1 as [G1|G1]; [discriminate G1|]). destruct G1.
      * destruct G2 as (_ & [P|P] & _); [now apply Pc|]. intros ->. repeat (destruct P as [P|P]; [discriminate P|]). destruct P.
      * intros ->. repeat (destruct G1 as [G1|G1]; [discriminate G1|]). destruct G1.
      * destruct G2 as (_ & [P|P] & _); [now apply Pc|destruct P].
Qed.
Lemma extract_acts start f its : Forall (kinds opens (cluster :: leaves)) its -> all_okat start 0 its -> acts false (extract_step start f) extract' f its.
Proof.
  intros F O its1 i its2 a b s Ei Ea E. rewrite Forall_forall in F. specialize (F i). rewrite Ei in F. specialize (F (in_elt i its1 its2)).
  assert (Oi : okat start (lenN a) i) by (rewrite Ei in O; apply all_okat_app in O as (_ & (O & _)); rewrite N.add_0_l in O; now rewrite Ea, encs_false).
  destruct i as [id w n|id w d|bl].
  - cbn [kinds] in F. unfold extract_step, extract', id_in, id_is. change (e_id (ek (Open id w n) (lenN a))) with id. rewrite open_data.
    destruct (existsb (beqb id) [SEGMENT; BLOCK_GROUP; TRACKLIST; TRACK; CONTENTENCODINGLIST; CONTENTENCODING; COMPRESSION; ATTACHMENT_LIST; ATTACHMENT]) eqn:X; [reflexivity|]. change (e_block (ek (Open id w n) (lenN a))) with (@None block). cbv iota.
    assert (Ec : id = cluster).
    { cbn in F. repeat (destruct F as [F|F]; [subst id; (reflexivity || discriminate X)|]). destruct F. }
    subst id. change (beqb cluster CLUSTER) with true. cbv iota. change (e_length (ek (Open cluster w n) (lenN a))) with (Z.of_N n). cbn [okat] in Oi. specialize (Oi eq_refl). cbn [enc item_bytes]. replace (_ <? _)%Z with false by lia. reflexivity.
  - destruct F as (F & Nu). unfold extract_step, extract', id_in, id_is. change (e_id (ek (Leaf id w d) (lenN a))) with id.
    rewrite (kinds_plain (cluster :: leaves) [SEGMENT; BLOCK_GROUP; TRACKLIST; TRACK; CONTENTENCODINGLIST; CONTENTENCODING; COMPRESSION; ATTACHMENT_LIST; ATTACHMENT] id) by (exact F || reflexivity).
    change (e_block (ek (Leaf id w d) (lenN a))) with (@None block). cbv iota. rewrite (leaf_read f a b false id w d E) by discriminate. rewrite (leaf_skip a false id w d) by discriminate. cbv zeta. cbn [fst snd].
    destruct (beqb id CLUSTER) eqn:C.
    { apply beqb_eq in C. subst id. change (existsb (beqb CLUSTER) in_tracks) with false. change (beqb CLUSTER ATTACHED_FILE_NAME) with false. change (beqb CLUSTER ATTACHED_FILE_DATA) with false. cbv iota. cbn [okat] in Oi. specialize (Oi eq_refl). rewrite leaf_data. change (e_length (ek (Leaf CLUSTER w d) (lenN a))) with (Z.of_N (lenN d)). replace (_ <? _)%Z with true by (clear - Oi; lia). reflexivity. }
    destruct (existsb (beqb id) in_tracks); [destruct (main_track (x_main s) id d); reflexivity|]. destruct (beqb id ATTACHED_FILE_NAME); [reflexivity|]. destruct (beqb id ATTACHED_FILE_DATA); [|reflexivity]. destruct (x_cur s) as [name|]; [|reflexivity]. destruct (get beqb name (x_atts s)) as [[v|]|e]; reflexivity.
  - cbn [kinds] in F. unfold extract_step, extract', id_in, id_is. change (e_id (ek (Blk bl) (lenN a))) with (k_id bl). rewrite (blk_plain bl F) by reflexivity.
    unfold extract_block. rewrite (blk_read f a b bl E), blk_skip. cbn [fst snd]. change (e_length (ek (Blk bl) (lenN a))) with (Z.of_N (lenN (concat (k_frames bl)))). remember (ek (Blk bl) (lenN a)) as e eqn:Ee. replace (e_block e) with (Some (mkB (k_no bl) (map Z.of_N (map lenN (k_frames bl))) (blk_head bl) false)) by (now rewrite Ee). cbv zeta. cbn [b_track b_frames].
    destruct (get N.eqb (k_no bl) (x_tracks s)) as [t|x]; [|reflexivity]. destruct (get N.eqb (k_no bl) (mm_strip (x_main s))) as [strip|x]; [|reflexivity]. cbn [bind]. destruct (_ <? _)%Z; reflexivity.
Qed.

(** ** Attachments *)
Definition astep (s : list (bytes * option bytes) * option bytes) (i : item) : result (list (bytes * option bytes) * option bytes) :=
  match i with
  | Leaf id _ d =>
    if beqb id file_name then Ok (with_key beqb d None (fst s), Some d)
    else if beqb id file_contents then
      match snd s with
      | None => Err KeyError
      | Some name => do a <- get beqb name (fst s); match a with Some _ => Err AssertionError | None => Ok (put beqb name (Some d) (fst s), snd s) end
      end
    else Ok s
  | _ => Ok s
  end.
Fixpoint asteps (s : list (bytes * option bytes) * option bytes) (its : list item) : result (list (bytes * option bytes) * option bytes) := match its with [] => Ok s | i :: its => do s <- astep s i; asteps s its end.
Lemma asteps_run its : forall atts cur, ~ In None (map fst (attached_files cur its)) -> NoDup (map fst (attached_files cur its)) -> NoDup (map fst atts) ->
  (forall nm d, In (Some nm, d) (attached_files cur its) -> forall d', get beqb nm atts <> Ok (Some d')) -> (forall k, cur = Some k -> exists v, get beqb k atts = Ok v) ->
  exists atts' cur', asteps (atts, cur) its = Ok (atts', cur') /\ NoDup (map fst atts') /\ (forall nm d, In (Some nm, d) (attached_files cur its) -> get beqb nm atts' = Ok (Some d)) /\ (forall nm d, get beqb nm atts = Ok (Some d) -> get beqb nm atts' = Ok (Some d)).
Proof.
  induction its as [|i its IH]; intros atts cur Nn Nd Na Di Cu; cbn [asteps attached_files] in *; [exists atts, cur; split; [reflexivity|]; split; [exact Na|]; split; [intros nm d []|auto]|].
  destruct i as [id w n|id w d|b]; cbn [astep bind]; [now apply IH| |now apply IH]. cbn [fst snd]. destruct (beqb id file_name) eqn:C1; cbn [bind].
  - destruct (IH (with_key beqb d None atts) (Some d)) as (a' & c' & E & N' & A1 & A2); [exact Nn|exact Nd|now apply (with_key_nodup beqb beqb_eq)| | |].
    + intros nm x Hx d'. rewrite (get_with_key beqb beqb_eq). destruct (get beqb nm atts) as [v|e] eqn:G; [rewrite <- G; now apply (Di nm x)|]. destruct (beqb d nm); discriminate.
    + intros k X. apply some_inj in X. subst k. rewrite (get_with_key beqb beqb_eq), beqb_refl. destruct (get beqb d atts) as [v|e]; eauto.
    + exists a', c'. split; [exact E|]. split; [exact N'|]. split; [exact A1|]. intros nm x G. apply A2. now rewrite (get_with_key beqb beqb_eq), G.
  - destruct (beqb id file_contents) eqn:C2; cbn [bind]; [|now apply IH]. cbn [map fst] in Nn, Nd. destruct cur as [k|]; [|destruct Nn; now left]. destruct (Cu k eq_refl) as (v & G). rewrite G. cbn [bind]. destruct v as [v|]; [destruct (Di k d (or_introl eq_refl) v G)|]. cbn [bind].
    apply NoDup_cons_iff in Nd as (Nk & Nd). destruct (IH (put beqb k (Some d) atts) (Some k)) as (a' & c' & E & N' & A1 & A2); [intros X; apply Nn; now right|exact Nd|now apply (put_nodup beqb beqb_eq)| | |].
    + intros nm x Hx d'. assert (nm <> k) by (intros ->; apply Nk; apply (in_map fst) in Hx; exact Hx). rewrite (get_put_other beqb beqb_eq) by exact H. apply (Di nm x). now right.
    + intros k' X. apply some_inj in X. subst k'. exists (Some d). apply (get_put_same beqb beqb_eq).
    + exists a', c'. split; [exact E|]. split; [exact N'|]. split.
      * intros nm x [X|X]; [injection X as <- <-; apply A2, (get_put_same beqb beqb_eq)|now apply A1].
      * intros nm x Gx. apply A2. rewrite (get_put_other beqb beqb_eq); [exact Gx|]. intros ->. congruence.
Qed.
Lemma extract_head ts L : (forall b, ~ In (Blk b) L) -> forall m m' s s' pos, msteps m L = Ok m' -> asteps s L = Ok s' -> irun false x_done extract' L pos (mkX ts m (fst s) (snd s) false) = Ok (mkX ts m' (fst s') (snd s') false).
Proof.
  induction L as [|i L IH]; intros Nb m m' s s' pos E A; cbn [msteps asteps irun] in *; [apply ok_inj in E; apply ok_inj in A; now subst|]. change (x_done (mkX ts m (fst s) (snd s) false)) with false. cbv iota. destruct (mstep m i) as [m1|e] eqn:E0; [|discriminate E]. destruct (astep s i) as [s1|e] eqn:A0; [|discriminate A]. cbn [bind] in E, A.
  assert (St : extract' (mkX ts m (fst s) (snd s) false) pos i = Ok (mkX ts m1 (fst s1) (snd s1) false, true)).
  { destruct i as [id w n|id w d|b]; cbn [mstep astep extract' x_main x_tracks x_done x_atts x_cur] in *; [apply ok_inj in E0; apply ok_inj in A0; now subst| |destruct (Nb b); now left]. change ATTACHED_FILE_NAME with file_name. change ATTACHED_FILE_DATA with file_contents. destruct (existsb (beqb id) in_tracks) eqn:It.
    - rewrite E0. cbn [bind]. assert (X : beqb id file_name = false /\ beqb id file_contents = false).
      { apply existsb_exists in It as (y & Hy & Ey). apply beqb_eq in Ey. subst y. destruct Hy as [<-|[<-|[<-|[]]]]; split; reflexivity. }
      destruct X as (X1 & X2). rewrite X1, X2 in A0. apply ok_inj in A0. subst s1. destruct (beqb id TRACKNUMBER); reflexivity.
    - assert (m1 = m) by (destruct (beqb id TRACKCODEC); [destruct (get N.eqb (mm_cur m) (mm_strip m)); [|discriminate E0]|]; cbn [bind] in E0; apply ok_inj in E0; now subst). subst m1. clear E0. destruct (beqb id file_name); [apply ok_inj in A0; now subst|]. destruct (beqb id file_contents); [|apply ok_inj in A0; now subst]. destruct (snd s) as [k|]; [|discriminate A0]. destruct (get beqb k (fst s)) as [[v|]|e]; cbn [bind] in *; try discriminate A0. apply ok_inj in A0. now subst. }
  rewrite St. cbn [bind fst snd]. now apply IH; [intros b X; apply (Nb b); right| |].
Qed.

(** ** Frames *)
Lemma frame_out (hm s fr y u v : bytes) : hm ++ fr = s ++ y -> frame_bytes (u ++ fr ++ v) hm s (Z.of_N (lenN u)) (Z.of_N (lenN fr)) = y.
Proof.
  intros E. assert (L : lenN hm + lenN fr = lenN s + lenN y) by (rewrite <- !lenN_app; now rewrite E).
  assert (Sl : slice (Z.of_N (lenN u)) (Z.of_N (lenN u) + Z.of_N (lenN fr)) (u ++ fr ++ v) = fr) by (rewrite slice_mid by lia; apply takeN_all; lia).
  assert (Cut : forall p r, fr = p ++ r -> forall i, (i = Z.of_N (lenN u) + Z.of_N (lenN p))%Z -> slice i (Z.of_N (lenN u) + Z.of_N (lenN fr)) (u ++ fr ++ v) = r).
  { intros p r Ep i ->. replace (u ++ fr ++ v) with ((u ++ p) ++ r ++ v) by (rewrite Ep, <- !app_assoc; reflexivity). rewrite Ep. rewrite slice_mid by (rewrite !lenN_app; lia). apply takeN_all. rewrite lenN_app. lia. }
  assert (Pre : forall a b c d : bytes, a ++ b = c ++ d -> lenN a <= lenN c -> exists r, c = a ++ r /\ b = r ++ d).
  { clear. intros a b c d E H. exists (dropN (lenN a) c). assert (X : takeN (lenN a) (a ++ b) = takeN (lenN a) (c ++ d)) by now rewrite E. rewrite takeN_app_exact in X by reflexivity. rewrite takeN_app_le in X by exact H. assert (Ec : c = a ++ dropN (lenN a) c) by (rewrite X at 1; symmetry; apply takeN_dropN). split; [exact Ec|]. rewrite Ec, <- app_assoc in E. now apply app_inv_head in E. }
  unfold frame_bytes. destruct (negb (lenN s =? 0) && negb (lenN hm =? 0)) eqn:C.
  - destruct (beqb hm s) eqn:B; [apply beqb_eq in B; subst s; apply app_inv_head in E; rewrite Sl; exact E|]. destruct (N.ltb_spec (lenN hm) (lenN s)) as [H|H].
    + destruct (Pre hm fr s y E) as (r & Es & Ef); [lia|]. apply (Cut r y Ef). rewrite Es, lenN_app. lia.
    + destruct (N.ltb_spec (lenN s) (lenN hm)) as [H2|H2].
      * symmetry in E. destruct (Pre s y hm fr E) as (r & Es & Ef); [lia|]. rewrite Sl, Es, dropN_app_exact by reflexivity. now rewrite Ef.
      * exfalso. destruct (Pre hm fr s y E) as (r & Es & _); [lia|]. assert (lenN r = 0) by (rewrite Es, lenN_app in *; lia). apply lenN_0 in H0. subst r. rewrite app_nil_r in Es. rewrite Es, beqb_refl in B. discriminate B.
  - apply andb_false_iff in C as [C|C]; apply negb_false_iff, N.eqb_eq, lenN_0 in C; subst.
    + cbn [lenN app] in *. rewrite Z.add_0_r, Sl. exact E.
    + cbn [app] in *. apply (Cut s y E). lia.
Qed.
Fixpoint collect (n : N) (d : bytes) (l : list bytes) : bytes := match l with [] => d | y :: l => collect n (if lenN d <? n then d ++ y else d) l end.
Lemma collect_app n b : forall a d, collect n d (a ++ b) = collect n (collect n d a) b. Proof. induction a as [|y a IH]; intros d; [reflexivity|]. cbn [app collect]. apply IH. Qed.
Lemma collect_is n : forall l d, starts (collect n d l) (d ++ concat l) /\ (collect n d l = d ++ concat l \/ n <= lenN (collect n d l)) /\ lenN d <= lenN (collect n d l).
Proof.
  induction l as [|y l IH]; intros d; cbn [collect concat].
  - rewrite app_nil_r. split; [exists []; now rewrite app_nil_r|]. split; [now left|lia].
  - destruct (N.ltb_spec (lenN d) n) as [H|H].
    + destruct (IH (d ++ y)) as (A & B & C). rewrite <- app_assoc in A, B. split; [exact A|]. split; [exact B|]. rewrite lenN_app in C. lia.
    + destruct (IH d) as (A & B & C). assert (E : collect n d l = d).
      { clear - H. induction l as [|z l IH]; [reflexivity|]. cbn [collect]. replace (lenN d <? n) with false by lia. exact IH. }
      rewrite E in *. split; [now exists (y ++ concat l)|]. split; [right; exact H|lia].
Qed.
Lemma extract_frames_are e (s hm : bytes) (at_ : N) t l : m_offset t = at_ -> forall (u : bytes) d, Forall (fun fr => exists y, hm ++ fr = s ++ y) l ->
  extract_frames e (u ++ concat l) hm s (map Z.of_N (map lenN l)) (Z.of_N (lenN u)) t d =
  collect (td_length (m_td t)) d (map snd (convs s hm (filter (fun f => at_ <=? fst f) (placed (e_data e + lenN u) l)))).
Proof.
  intros Et. induction l as [|fr l IH]; intros u d F; [reflexivity|]. inversion F as [|? ? (y & Ey) F']; subst. cbn [map concat extract_frames placed filter fst].
  rewrite (frame_out hm s fr y u (concat l) Ey). replace (u ++ fr ++ concat l) with ((u ++ fr) ++ concat l) by now rewrite <- !app_assoc. replace (Z.of_N (lenN u) + Z.of_N (lenN fr))%Z with (Z.of_N (lenN (u ++ fr))) by (rewrite !lenN_app; lia). rewrite IH by exact F'. rewrite (lenN_app u), N.add_assoc.
  replace (Z.of_N (m_offset t) <=? Z.of_N (e_data e) + Z.of_N (lenN u))%Z with (m_offset t <=? e_data e + lenN u) by lia. destruct (m_offset t <=? e_data e + lenN u); [|reflexivity]. cbn [andb convs map fst snd collect]. replace (conv s hm fr) with y by (unfold conv; rewrite Ey; symmetry; now apply dropN_app_exact). reflexivity.
Qed.
Lemma placed_end l : forall p o x, In (o, x) (placed p l) -> o + lenN x <= p + lenN (concat l).
Proof. induction l as [|y l IH]; intros p o x; cbn [placed]; [intros []|]. cbn [concat]. rewrite lenN_app. intros [E|H]; [injection E as <- <-; lia|]. apply IH in H. lia. Qed.
Lemma frames_end n its : forall p o x, In (o, x) (frames_at n p its) -> o + lenN x <= p + lenN (bytes_of its).
Proof.
  induction its as [|i its IH]; intros p o x; cbn [frames_at]; [intros []|]. rewrite in_app_iff, bytes_cons, lenN_app. intros [H|H]; [|apply IH in H; lia]. destruct i as [| |b]; [destruct H|destruct H|]. destruct (k_no b =? n); [|destruct H]. apply placed_end in H. cbn [item_bytes]. rewrite !lenN_app in *. lia.
Qed.

(** ** The tracks while extracting *)
Section Extract.
(** [ini]: what is in the files before *)
Variables (its all : list item) (hm : N -> bytes) (at_ : N -> N) (ini : N -> option bytes) (p0 : N).
Definition old (n : N) : bytes := match ini n with Some d => d | None => [] end.
Definition gl (n : N) (X : list item) : list (N * bytes) := convs (header_of n its) (hm n) (filter (fun f => at_ n <=? fst f) (frames_at n p0 X)).
Definition xtrack (X : list item) (n : N) (t : mtrack) : Prop :=
  m_offset t = at_ n /\ m_strip t = header_of n its /\ td_length (m_td t) = lenN (data_of n its) /\
  (m_file t = ini n /\ gl n X = [] \/ m_file t = Some (collect (lenN (data_of n its)) (old n) (map snd (gl n X)))).
Definition xgood (X : list item) (ts : mtracks) : Prop :=
  NoDup (map fst ts) /\ (forall n, data_of n its <> [] -> exists t, get N.eqb n ts = Ok t /\ xtrack X n t) /\ (forall n t, get N.eqb n ts = Ok t -> data_of n its = [] -> td_signature (m_td t) = []).
Hypothesis Fr : forall n, data_of n its <> [] -> Forall (fun f => snd f <> [] /\ exists y, hm n ++ snd f = header_of n its ++ y) (frames_at n p0 all).
Variable m : mains.
Hypothesis Fm : forall b, In (Blk b) all -> get N.eqb (k_no b) (mm_strip m) = Ok (hm (k_no b)).
Definition late' (i : item) : Prop := match i with Leaf id _ _ => existsb (beqb id) in_tracks = false /\ beqb id ATTACHED_FILE_NAME = false /\ beqb id ATTACHED_FILE_DATA = false | _ => True end.
Lemma gl_snoc n X i : gl n (X ++ [i]) = gl n X ++ convs (header_of n its) (hm n) (filter (fun f => at_ n <=? fst f) (frames_at n (p0 + lenN (bytes_of X)) [i])).
Proof. unfold gl. now rewrite frames_app, filter_app, convs_app. Qed.
Lemma xgood_same X i ts : (forall n, data_of n its <> [] -> filter (fun f => at_ n <=? fst f) (frames_at n (p0 + lenN (bytes_of X)) [i]) = []) -> xgood X ts -> xgood (X ++ [i]) ts.
Proof.
  intros E (Nd & G1 & G2). split; [exact Nd|]. split; [|exact G2]. intros n Hn. destruct (G1 n Hn) as (t & Gt & Ft). exists t. split; [exact Gt|]. unfold xtrack in *. rewrite gl_snoc, E by exact Hn. cbn [convs map]. rewrite app_nil_r. exact Ft.
Qed.
Lemma xstep_is atts cur X i Y ts : all = X ++ i :: Y -> late' i -> xgood X ts -> exists ts' dn,
  extract' (mkX ts m atts cur false) (p0 + lenN (bytes_of X)) i = Ok (mkX ts' m atts cur dn, true) /\ xgood (X ++ [i]) ts' /\ (dn = true -> forallb (fun t => complete (snd t)) ts' = true).
Proof using Fr Fm.
  intros Ea La G. destruct i as [id w n|id w d|b].
  - exists ts, false. split; [reflexivity|]. split; [apply xgood_same; [reflexivity|exact G]|discriminate].
  - exists ts, false. cbn [late'] in La. destruct La as (L1 & L2 & L3). cbn [extract']. rewrite L1, L2, L3. split; [reflexivity|]. split; [apply xgood_same; [reflexivity|exact G]|discriminate].
  - set (k := k_no b). cbn [extract' x_tracks x_main x_atts x_cur x_done]. fold k.
    assert (Ib : In (Blk b) all) by (rewrite Ea; apply in_elt). pose proof (Fm b Ib) as Gm. fold k in Gm. rewrite Gm.
    assert (Ot : forall n, n <> k -> frames_at n (p0 + lenN (bytes_of X)) [Blk b] = []) by (intros n Hn; cbn [frames_at]; fold k; destruct (N.eqb_spec k n); [congruence|reflexivity]).
    assert (Fk : frames_at k (p0 + lenN (bytes_of X)) [Blk b] = placed (e_data (ek (Blk b) (p0 + lenN (bytes_of X)))) (k_frames b)) by (cbn [frames_at]; fold k; now rewrite N.eqb_refl, app_nil_r, blk_data).
    destruct (get N.eqb k ts) as [t|e] eqn:Gk.
    2:{ exists ts, false. split; [reflexivity|]. split; [|discriminate]. apply xgood_same; [|exact G]. intros n Hn. destruct (N.eq_dec n k) as [->|Nk]; [|now rewrite Ot]. destruct (proj1 (proj2 G) k Hn) as (t & Gt & _). congruence. }
    cbn [bind].
    assert (D : data_of k its = [] \/ data_of k its <> []) by (destruct (data_of k its); [now left|right; discriminate]). destruct D as [D|D].
    + assert (Put : forall d, xgood (X ++ [Blk b]) (put N.eqb k (with_mfile t d) ts)).
      { intros d. apply xgood_same; [intros n Hn; rewrite Ot; [reflexivity|intros ->; contradiction]|]. destruct G as (Nd & G1 & G2). split; [now apply (put_nodup N.eqb N.eqb_eq)|]. split.
        - intros n Hn. rewrite (get_put_other N.eqb N.eqb_eq) by (intros ->; contradiction). now apply G1.
        - intros n t' Gt Dn. destruct (N.eq_dec n k) as [->|Nk]; [rewrite (get_put_same N.eqb N.eqb_eq) in Gt; apply ok_inj in Gt; subst t'; now apply (G2 k t)|]. rewrite (get_put_other N.eqb N.eqb_eq) in Gt by exact Nk. now apply (G2 n). }
      destruct (_ <? _)%Z.
      * eexists _, _. split; [reflexivity|]. split; [apply Put|now intros ->].
      * exists ts, false. split; [reflexivity|]. split; [|discriminate]. apply xgood_same; [intros n Hn; rewrite Ot; [reflexivity|intros ->; contradiction]|exact G].
    + destruct (proj1 (proj2 G) k D) as (t' & Gt & T1 & T2 & T3 & T4). assert (t' = t) by congruence. subst t'. clear Gt.
      assert (Ff : Forall (fun f => snd f <> [] /\ exists y, hm k ++ snd f = header_of k its ++ y) (placed (e_data (ek (Blk b) (p0 + lenN (bytes_of X)))) (k_frames b))).
      { specialize (Fr k D). rewrite Ea in Fr. rewrite frames_app in Fr. apply Forall_app in Fr as (_ & F2). change (Blk b :: Y) with ([Blk b] ++ Y) in F2. rewrite frames_app in F2. apply Forall_app in F2 as (F2 & _). now rewrite Fk in F2. }
      destruct (Z.ltb_spec (Z.of_N (m_offset t)) (Z.of_N (e_data (ek (Blk b) (p0 + lenN (bytes_of X)))) + Z.of_N (lenN (concat (k_frames b))))) as [Lt|Ge].
      * eexists _, _. split; [reflexivity|]. split; [|now intros ->]. destruct G as (Nd & G1 & G2). split; [now apply (put_nodup N.eqb N.eqb_eq)|]. split.
        -- intros n Hn. destruct (N.eq_dec n k) as [->|Nk].
           ++ eexists. split; [apply (get_put_same N.eqb N.eqb_eq)|]. split; [exact T1|]. split; [exact T2|]. split; [exact T3|]. right. cbn [with_mfile m_file]. f_equal. rewrite T2. rewrite gl_snoc, map_app, collect_app, Fk.
              pose proof (extract_frames_are (ek (Blk b) (p0 + lenN (bytes_of X))) (header_of k its) (hm k) (at_ k) t (k_frames b) T1 []) as R. cbn [lenN app] in R. rewrite N.add_0_r, T3 in R. etransitivity; [apply R|].
              { apply Forall_forall. intros fr Hfr. rewrite <- (placed_fst (k_frames b) (e_data (ek (Blk b) (p0 + lenN (bytes_of X))))) in Hfr. apply in_map_iff in Hfr as (z & <- & Hz). rewrite Forall_forall in Ff. apply (Ff z Hz). }
              f_equal. destruct T4 as [(-> & E)|E]; rewrite E; [unfold old; now destruct (ini k)|reflexivity].
           ++ destruct (G1 n Hn) as (tn & Gn & Fn). exists tn. split; [rewrite (get_put_other N.eqb N.eqb_eq) by exact Nk; exact Gn|]. unfold xtrack in *. rewrite gl_snoc, Ot by exact Nk. cbn [filter convs map]. rewrite app_nil_r. exact Fn.
        -- intros n t' Gt Dn. destruct (N.eq_dec n k) as [->|Nk]; [contradiction|]. rewrite (get_put_other N.eqb N.eqb_eq) in Gt by exact Nk. now apply (G2 n).
      * exists ts, false. split; [reflexivity|]. split; [|discriminate]. apply xgood_same; [|exact G]. intros n Hn. destruct (N.eq_dec n k) as [->|Nk]; [|now rewrite Ot]. rewrite Fk. apply VolFacts.filter_none.
        rewrite Forall_forall in Ff. intros (o, x) Hx. destruct (Ff _ Hx) as (Xn & _). cbn [fst snd] in *. apply placed_end in Hx. assert (lenN x <> 0) by (intros Z0; apply Xn, lenN_0; exact Z0). lia.
Qed.
Lemma xrun atts cur Y : forall X ts, all = X ++ Y -> Forall late' Y -> xgood X ts -> exists s X' Y', irun false x_done extract' Y (p0 + lenN (bytes_of X)) (mkX ts m atts cur false) = Ok s /\ x_atts s = atts /\
  all = X' ++ Y' /\ xgood X' (x_tracks s) /\ (Y' = [] \/ forallb (fun t => complete (snd t)) (x_tracks s) = true).
Proof using Fr Fm.
  induction Y as [|i Y IH]; intros X ts Ea La G; cbn [irun].
  - exists (mkX ts m atts cur false), X, []. split; [reflexivity|]. split; [reflexivity|]. split; [exact Ea|]. split; [exact G|now left].
  - apply Forall_cons_iff in La as (Li & La'). change (x_done (mkX ts m atts cur false)) with false. cbv iota. destruct (xstep_is atts cur X i Y ts Ea Li G) as (ts' & dn & E & G' & Dn). rewrite E. cbn [bind fst snd]. rewrite enc_false.
    replace (p0 + lenN (bytes_of X) + lenN (item_bytes i)) with (p0 + lenN (bytes_of (X ++ [i]))) by (rewrite bytes_snoc, lenN_app; lia). destruct dn.
    + exists (mkX ts' m atts cur true), (X ++ [i]), Y. split; [destruct Y; reflexivity|]. split; [reflexivity|]. split; [rewrite Ea, <- app_assoc; reflexivity|]. split; [exact G'|right; now apply Dn].
    + apply IH; [rewrite Ea, <- app_assoc; reflexivity|exact La'|exact G'].
Qed.
End Extract.
(** what is in the files when all is read or all are complete *)
Definition filled (its : list item) (ts : mtracks) : Prop :=
  NoDup (map fst ts) /\ (forall n, data_of n its <> [] -> exists t d, get N.eqb n ts = Ok t /\ m_file t = Some d /\ starts (data_of n its) d /\ td_length (m_td t) = lenN (data_of n its)) /\
  (forall n t, get N.eqb n ts = Ok t -> data_of n its = [] -> td_signature (m_td t) = []).
Lemma starts_len (d w e : bytes) : starts d w -> starts e w -> lenN d <= lenN e -> starts d e.
Proof.
  intros (r1 & E1) (r2 & E2) L. exists (dropN (lenN d) e). assert (X : takeN (lenN d) (d ++ r1) = takeN (lenN d) (e ++ r2)) by (rewrite <- E1, <- E2; reflexivity). rewrite takeN_app_exact in X by reflexivity. rewrite takeN_app_le in X by exact L. rewrite X at 1. symmetry. apply takeN_dropN.
Qed.
Lemma collect_long n l : forall d, n <= lenN d -> collect n d l = d.
Proof. induction l as [|y l IH]; intros d H; [reflexivity|]. cbn [collect]. replace (lenN d <? n) with false by lia. now apply IH. Qed.

(** ** Offsets *)
Fixpoint after (p : N) (l : list (N * bytes)) : Prop := match l with [] => True | f :: l => p <= fst f /\ after (fst f + lenN (snd f)) l end.
Lemma after_le l : forall p q, q <= p -> after p l -> after q l. Proof. destruct l as [|f l]; intros p q H; [auto|]. cbn [after]. intros (A & B). split; [lia|exact B]. Qed.
Lemma placed_after l r : forall p, after (p + lenN (concat l)) r -> after p (placed p l ++ r).
Proof. induction l as [|x l IH]; intros p H; cbn [concat lenN placed app after fst snd] in *; [now rewrite N.add_0_r in H|]. split; [lia|]. apply IH. rewrite lenN_app, N.add_assoc in H. exact H. Qed.
Lemma frames_after n its : forall p, after p (frames_at n p its).
Proof.
  induction its as [|i its IH]; intros p; cbn [frames_at]; [exact I|]. specialize (IH (p + lenN (item_bytes i))). destruct i as [id w k|id w d|b]; try (cbn [app]; revert IH; apply after_le; lia). destruct (k_no b =? n); [|cbn [app]; revert IH; apply after_le; lia].
  apply (after_le _ (p + lenN (header (k_id b) (k_w b) (blk_size b) ++ blk_head b))); [lia|]. apply placed_after. revert IH. apply after_le. cbn [item_bytes]. rewrite !lenN_app. lia.
Qed.
Lemma after_later l : forall p, after p l -> Forall (fun f => p <= fst f) l.
Proof. induction l as [|f l IH]; intros p H; [constructor|]. destruct H as (A & B). constructor; [exact A|]. specialize (IH _ B). eapply Forall_impl; [|exact IH]. intros g Hg. cbn beta in *. lia. Qed.
Lemma after_split a f b : forall p, after p (a ++ f :: b) -> Forall (fun g => snd g <> []) (a ++ f :: b) -> Forall (fun g => fst g < fst f) a /\ Forall (fun g => fst f <= fst g) b.
Proof.
  induction a as [|g a IH]; intros p H F; cbn [app after] in H.
  - split; [constructor|]. destruct H as (_ & H). apply after_later in H. eapply Forall_impl; [|exact H]. intros h Hh. cbn beta in *. lia.
  - destruct H as (_ & H). cbn [app] in F. inversion F as [|? ? G F']; subst. destruct (IH _ H F') as (A & B). split; [|exact B]. constructor; [|exact A]. apply after_later in H. rewrite Forall_forall in H. specialize (H f (in_elt f a b)). cbn beta in H. assert (lenN (snd g) <> 0) by (intros Z0; apply G, lenN_0; exact Z0). lia.
Qed.
Lemma filter_every {A} (g : A -> bool) l : Forall (fun x => g x = true) l -> filter g l = l. Proof. induction 1 as [|x l H _ IH]; [reflexivity|]. cbn [filter]. now rewrite H, IH. Qed.
Lemma convs_split s hm a o x b : forall l, convs s hm l = a ++ (o, x) :: b -> exists a' x' b', l = a' ++ (o, x') :: b' /\ convs s hm a' = a /\ convs s hm b' = b /\ conv s hm x' = x.
Proof.
  induction a as [|f a IH]; intros l E; destruct l as [|g l]; try discriminate E; cbn [convs map app] in E.
  - injection E as E1 E2 E3. exists [], (snd g), l. split; [destruct g; cbn [fst snd app] in *; now rewrite E1|]. now split.
  - injection E as E1 E2. fold (convs s hm l) in E2. destruct (IH l E2) as (a' & x' & b' & -> & <- & <- & <-). exists (g :: a'), x', b'. split; [reflexivity|]. split; [cbn [convs map]; now rewrite E1|]. now split.
Qed.
Lemma looks_frames n start ps : forall pos, incl (frames_at n pos (looks (inside start) pos ps)) (frames_at n pos (all_items ps)).
Proof.
  induction ps as [|p ps IH]; intros pos; [intros x []|]. cbn [looks]. rewrite all_cons, !frames_app, look_bytes. apply incl_app; [|apply incl_appr, IH]. apply incl_appl. destruct p as [i|id w l]; [apply incl_refl|]. cbn [look inside]. destruct (negb _); [apply incl_refl|]. intros x [].
Qed.
Lemma looks_filter n start at_ ps : start <= at_ -> forall pos, filter (fun f => at_ <=? fst f) (frames_at n pos (looks (inside start) pos ps)) = filter (fun f => at_ <=? fst f) (frames_at n pos (all_items ps)).
Proof.
  intros Hs. induction ps as [|p ps IH]; intros pos; [reflexivity|]. cbn [looks]. rewrite all_cons, !frames_app, look_bytes, !filter_app, IH. f_equal. destruct p as [i|id w l]; [reflexivity|]. cbn [look inside]. destruct (beqb id cluster && _) eqn:E; cbn [negb]; [|reflexivity]. apply andb_true_iff in E as (_ & E). symmetry. apply VolFacts.filter_none. intros (o, x) H. cbn [fst items_of] in *. apply frames_end in H. rewrite bytes_cons, lenN_app in H. cbn [item_bytes] in H. lia.
Qed.
Lemma start_le (ts : mtracks) k t : In (k, t) ts -> 0 < m_offset t -> start_offset ts <= m_offset t.
Proof.
  unfold start_offset. induction ts as [|u ts IH]; intros H Ho; [destruct H|]. cbn [fold_right]. destruct H as [->|H].
  - cbn [snd]. replace (0 <? m_offset t) with true by lia. lia.
  - specialize (IH H Ho). destruct (0 <? m_offset (snd u)); lia.
Qed.
Lemma late_weak start ps : Forall part_ok ps -> Forall (fun p => ~ group_in [tracks; attachments] p) ps -> forall pos, Forall late' (looks (inside start) pos ps).
Proof.
  induction 1 as [|p ps H _ IH]; intros Ng pos; [constructor|]. inversion Ng as [|? ? N1 N2]; subst. cbn [looks]. apply Forall_app. split; [|now apply IH]. assert (Pl : forall id w d, plain id -> late' (Leaf id w d)) by (intros id w d P; cbn [late']; split; [now apply plain_in|]; split; now apply plain_is).
  destruct p as [i|id w its]; cbn [look part_ok] in *.
  - constructor; [|constructor]. destruct i; try exact I. destruct H as (_ & _ & [P|[]] & _). now apply Pl.
  - destruct H as (Id & _ & G & _). assert (Ec : id = cluster).
    { destruct Id as [<-|[<-|[<-|[]]]]; [| |reflexivity]; exfalso; apply N1; [exists tracks, w, its; split; [reflexivity|now left]|exists attachments, w, its; split; [reflexivity|right; now left]]. }
    subst id. destruct (inside start pos (Group cluster w its)); [|constructor; [repeat split|constructor]]. constructor; [exact I|]. eapply Forall_impl; [|exact G]. intros i [(X & _) | [(X & _) | (_ & Gi)]]; [discriminate X|discriminate X|]. destruct i as [| id' w' d|]; try exact I. destruct Gi as (_ & _ & [P|[]] & _). now apply Pl.
Qed.
Lemma looks_before start ps : Forall (fun p => ~ group_in [cluster] p) ps -> forall pos, looks (inside start) pos ps = all_items ps.
Proof.
  induction 1 as [|p ps H _ IH]; intros pos; [reflexivity|]. cbn [looks]. rewrite IH, all_cons. f_equal. destruct p as [i|id w its]; [reflexivity|]. cbn [look inside]. destruct (beqb id cluster) eqn:E; [|reflexivity]. exfalso. apply H. exists id, w, its. split; [reflexivity|]. apply beqb_eq in E. now left.
Qed.
Lemma in_looks start ps b : forall pos, In (Blk b) (looks (inside start) pos ps) -> In (Blk b) (all_items ps).
Proof.
  induction ps as [|p ps IH]; intros pos; [auto|]. cbn [looks]. rewrite all_cons, !in_app_iff. intros [H|H]; [left|right; now apply (IH _ H)]. destruct p as [i|id w its]; [exact H|]. cbn [look] in H. destruct (inside start pos (Group id w its)); [exact H|]. destruct H as [H|[]]. discriminate H.
Qed.
Lemma attached_app its2 its1 : (forall cur, attached_files cur its2 = []) -> forall cur, attached_files cur (its1 ++ its2) = attached_files cur its1.
Proof.
  intros H. induction its1 as [|i its1 IH]; intros cur; [apply H|]. cbn [app attached_files]. destruct i as [id w n|id w d|b]; try apply IH. destruct (beqb id file_name); [apply IH|]. destruct (beqb id file_contents); [now rewrite IH|apply IH].
Qed.
Lemma place_real its ms at_ n : Forall syn ms -> in_movie held its ms at_ -> data_of n its <> [] -> 0 < at_ n.
Proof.
  intros Sy (Im & _) Hn. destruct (Im n Hn) as (l & (Cf & _) & a & x & b & El & _ & _). apply comparable_is in Cf as (Cl & _). rewrite Cl in El. apply convs_split in El as (a' & x' & b' & El & _). assert (I : In (at_ n, x') (frames_at n 0 ms)) by (rewrite El; apply in_elt). apply (frames_place n ms Sy) in I. lia.
Qed.
(** [ts] are tracks of the sample with any offsets and anything in their files *)
Definition ready (its : list item) (ts : mtracks) : Prop :=
  NoDup (map fst ts) /\
  (forall n, data_of n its <> [] -> exists t, get N.eqb n ts = Ok t /\ 0 < m_offset t /\ m_strip t = header_of n its /\ td_length (m_td t) = lenN (data_of n its)) /\
  (forall n t, get N.eqb n ts = Ok t -> data_of n its = [] -> td_signature (m_td t) = []).
Definition before_file (t : mtrack) : bytes := match m_file t with Some d => d | None => [] end.
Definition reach (ms : list item) (n o : N) : Prop := exists p x, In (p, x) (frames_at n 0 ms) /\ o <= p.
(** what extracting does to track [n] *)
Definition extracted (its ms : list item) (n : N) (t t' : mtrack) : Prop :=
  m_offset t' = m_offset t /\ m_strip t' = m_strip t /\ td_length (m_td t') = td_length (m_td t) /\
  starts (before_file t) (before_file t') /\
  (m_file t <> None \/ reach ms n (m_offset t) -> m_file t' <> None) /\
  (before_file t' <> before_file t -> reach ms n (m_offset t)) /\
  (lenN (data_of n its) <= lenN (before_file t) -> before_file t' = before_file t) /\
  (m_file t = None -> (exists l, comparable n its ms l /\ held (data_of n its) l (m_offset t)) -> starts (data_of n its) (before_file t')) /\
  (m_file t = None -> (exists l o, comparable n its ms l /\ held (data_of n its) l o /\ m_offset t <= o) -> lenN (data_of n its) <= lenN (before_file t')).
Lemma extract_again its f ms ts : movie_ok f ms -> (forall n, data_of n its <> [] -> exists l, comparable n its (all_items ms) l) -> incl (files_of its) (files_of (all_items ms)) -> ready its ts ->
  exists ts' atts, mkv_extract ts f = Ok (ts', atts) /\ ready its ts' /\
    (forall n, data_of n its <> [] -> exists t t', get N.eqb n ts = Ok t /\ get N.eqb n ts' = Ok t' /\ extracted its (all_items ms) n t t') /\
    NoDup (map fst atts) /\ forall nm d, In (Some nm, d) (files_of its) -> get beqb nm atts = Ok (Some d).
Proof.
  intros M Im Im2 (Nd & Lo1 & Lo2). destruct (movie_split f ms M) as (p1 & p2 & Ep & N1 & N2 & Nb1). destruct M as ((r & Ef & Lr) & F & _ & Nu & Fo & Bl). assert (F12 : Forall part_ok p1 /\ Forall part_ok p2) by (rewrite Ep in F; now apply Forall_app in F). destruct F12 as (F1 & F2). destruct (late_parts p2 F2 N2) as (La & Nl & Si & Na).
  set (start := start_offset ts). set (V2 := looks (inside start) (lenN (file_of p1)) p2). destruct (parts_syn ms F) as (Ps & So).
  assert (Sy : Forall syn (all_items ms)) by (pose proof (looks_syn (fun _ _ => true) ms Ps 0) as Sa; now rewrite looks_all in Sa by reflexivity).
  assert (Lk : looks (inside start) 0 ms = all_items p1 ++ V2) by (rewrite Ep, looks_app, looks_before by exact N1; reflexivity).
  assert (Ky : Forall (kinds opens (cluster :: leaves)) (looks (inside start) 0 ms)).
  { apply looks_kinds; [exact F|now left|intros y Hy; now right|]. intros pos id w l I. cbn [inside]. destruct I as [<-|[<-|[<-|[]]]]; [vm_compute; tauto|vm_compute; tauto|]. destruct (negb _); vm_compute; tauto. }
  unfold mkv_extract. fold start.
  rewrite (run_items false false x_done (extract_step start f) extract' f (looks (inside start) 0 ms) r).
  2:{ rewrite encs_false, looks_bytes. exact Ef. } 2:exact Lr. 2:now apply looks_syn. 2:discriminate. 2:{ apply extract_acts; [exact Ky|now apply looks_okat]. }
  rewrite Lk, irun_split by apply extract_goes.
  assert (Fn : Forall numbers (all_items p1)).
  { rewrite Lk in Ky. apply Forall_app in Ky as (Ky & _). eapply Forall_impl; [|exact Ky]. intros [id w n|id w d|b] H; try exact I. exact (proj2 H). }
  assert (Nu1 : numbered (all_items p1)).
  { intros x i y E A. apply (Nu x i (y ++ all_items p2)); [|exact A]. rewrite Ep, all_app, E, <- app_assoc. reflexivity. }
  destruct (msteps_run (all_items p1) Fn no_mains (or_intror Nu1)) as (m' & Em & _).
  assert (Af : forall cur, attached_files cur (all_items ms) = attached_files cur (all_items p1)) by (intros cur; rewrite Ep, all_app; now apply attached_app).
  destruct Fo as (Fo1 & Fo2). unfold files_of in Fo1, Fo2. rewrite Af in Fo1, Fo2.
  destruct (asteps_run (all_items p1) [] None Fo1 Fo2) as (atts & cur & Ea & Nda & A1 & _); [constructor|intros nm d _ d'; discriminate|discriminate|].
  pose proof (extract_head ts (all_items p1) Nb1 no_mains m' ([], None) (atts, cur) 0 Em Ea) as Eh. cbn [fst snd] in Eh. rewrite Eh. cbn [bind]. rewrite encs_false, N.add_0_l. fold (file_of p1).
  assert (Hdr : forall n, removed n None false [] (all_items p1) = header_of n (all_items ms)).
  { intros n. rewrite Ep, all_app, removed_end by exact Si. reflexivity. }
  assert (Hl : forall n, listed n (all_items ms) -> listed n (all_items p1)).
  { intros n. rewrite Ep, all_app, listed_app. intros [H|H]; [exact H|now destruct (Nl n)]. }
  pose proof (mains_header (all_items p1) (all_items ms) m' Fn Nu1 Hdr Hl Em) as Mh.
  assert (Fa : forall n, frames_at n 0 (all_items ms) = frames_at n (lenN (file_of p1)) (all_items p2)).
  { intros n. rewrite Ep, all_app, frames_app, (frames_none n (all_items p1) Nb1). cbn [app]. reflexivity. }
  set (of := fun n => match get N.eqb n ts with Ok t => m_offset t | Err _ => 0 end). set (ini := fun n => match get N.eqb n ts with Ok t => m_file t | Err _ => None end).
  destruct (xrun its V2 (fun n => header_of n (all_items ms)) of ini (lenN (file_of p1))) with (m := m') (atts := atts) (cur := cur) (Y := V2) (X := @nil item) (ts := ts) as (s & X' & Y' & Es & As & Ev & Fs & Fin).
  - intros n Hn. destruct (Im n Hn) as (l & (Cf & Cn)). apply comparable_is in Cf as (_ & Cf). rewrite Fa in Cf, Cn. rewrite Forall_forall in *. intros g Hg. apply looks_frames in Hg. split; [now apply Cn|now apply Cf].
  - intros b Hb. apply Mh, Bl. rewrite Ep, all_app. apply in_or_app. right. now apply (in_looks start p2 b) in Hb.
  - reflexivity.
  - now apply late_weak.
  - split; [exact Nd|]. split; [|exact Lo2].
    intros n Hn. destruct (Lo1 n Hn) as (t & Gt & T1 & T3 & T4). exists t. split; [exact Gt|]. split; [unfold of; now rewrite Gt|]. split; [exact T3|]. split; [exact T4|]. left. split; [unfold ini; now rewrite Gt|reflexivity].
  - cbn [bytes_of map concat lenN] in Es. rewrite N.add_0_r in Es. rewrite Es. cbn [bind]. exists (x_tracks s), (x_atts s). split; [reflexivity|].
    assert (Each : forall n, data_of n its <> [] -> exists t t', get N.eqb n ts = Ok t /\ get N.eqb n (x_tracks s) = Ok t' /\ 0 < m_offset t /\ m_strip t = header_of n its /\ td_length (m_td t) = lenN (data_of n its) /\ extracted its (all_items ms) n t t').
    { intros n Hn. destruct (Lo1 n Hn) as (t & Gt & T1 & T2 & T3). destruct (proj1 (proj2 Fs) n Hn) as (t' & Gt' & U1 & U2 & U3 & U4). exists t, t'. split; [exact Gt|]. split; [exact Gt'|]. split; [exact T1|]. split; [exact T2|]. split; [exact T3|].
      assert (Ofn : of n = m_offset t) by (unfold of; now rewrite Gt). assert (Inn : ini n = m_file t) by (unfold ini; now rewrite Gt). assert (Old : old ini n = before_file t) by (unfold old, before_file; now rewrite Inn).
      split; [congruence|]. split; [congruence|]. split; [congruence|]. rewrite Old, Inn in U4.
      assert (Sl : start <= m_offset t) by (apply (start_le ts n); [now apply (get_in N.eqb N.eqb_eq)|exact T1]).
      set (g := gl its (fun n => header_of n (all_items ms)) of (lenN (file_of p1)) n X') in *. set (whole := gl its (fun n => header_of n (all_items ms)) of (lenN (file_of p1)) n V2).
      assert (Gx : exists q, whole = g ++ q) by (unfold whole, g, gl; rewrite Ev, frames_app, filter_app, convs_app; eauto). destruct Gx as (q & Gx).
      assert (Wh : whole = convs (header_of n its) (header_of n (all_items ms)) (filter (fun f => m_offset t <=? fst f) (frames_at n 0 (all_items ms)))) by (unfold whole, gl, V2; rewrite Ofn, looks_filter, Fa by exact Sl; reflexivity).
      assert (Bf' : before_file t' = collect (lenN (data_of n its)) (before_file t) (map snd g)).
      { unfold before_file at 1. destruct U4 as [(E & Eg)|E]; rewrite E; [|reflexivity]. rewrite Eg. cbn [map collect]. unfold before_file. now destruct (m_file t). }
      rewrite Bf'. destruct (collect_is (lenN (data_of n its)) (map snd g) (before_file t)) as ((cr & Ec) & Cc & Cl). destruct (Im n Hn) as (l & Cf & Cn).
      split; [|split; [|split; [|split; [|split]]]].
      - apply (starts_len _ (before_file t ++ concat (map snd g))); [now exists (concat (map snd g))|now exists cr|exact Cl].
      - intros H. destruct U4 as [(E & Eg)|E]; rewrite E; [|discriminate]. destruct H as [H|(p & x & Hx & Lx)]; [exact H|]. intros E0. destruct Fin as [-> |C].
        + rewrite app_nil_r in Ev. assert (Gw : whole = []) by (unfold whole; rewrite Ev; exact Eg). rewrite Wh in Gw. apply map_eq_nil in Gw. assert (I : In (p, x) (filter (fun f => m_offset t <=? fst f) (frames_at n 0 (all_items ms)))) by (apply filter_In; split; [exact Hx|cbn [fst]; lia]). rewrite Gw in I. destruct I.
        + rewrite forallb_forall in C. specialize (C _ (get_in N.eqb N.eqb_eq n t' _ Gt')). cbn [snd] in C. unfold complete in C. now rewrite E, E0 in C.
      - intros H. destruct g as [|g0 g1]; [now destruct H|]. assert (I : In g0 whole) by (rewrite Gx; now left). rewrite Wh in I. apply in_map_iff in I as ((p, x) & _ & I). apply filter_In in I as (I & L). exists p, x. split; [exact I|]. cbn [fst] in L. lia.
      - intros H. now apply collect_long.
      - intros Hf (l' & (Cf' & _) & (a & x & b & El & Xn & St)). apply comparable_is in Cf' as (Cl' & _). rewrite Cl' in El. apply convs_split in El as (a' & x' & b' & El & Ea' & Eb' & Ex').
        assert (Ge : whole = (m_offset t, x) :: b).
        { rewrite Wh, El, filter_app. rewrite El in Cn. pose proof (frames_after n (all_items ms) 0) as Fz. rewrite El in Fz. destruct (after_split _ _ _ _ Fz Cn) as (B1 & B2). cbn [fst] in B1, B2. rewrite VolFacts.filter_none.
          - cbn [app filter fst]. rewrite N.leb_refl, filter_every; [cbn [convs map fst snd]; fold (convs (header_of n its) (header_of n (all_items ms)) b'); rewrite Eb', Ex'; reflexivity|]. eapply Forall_impl; [|exact B2]. intros g' Hg. cbn beta in *. lia.
          - intros g' Hg. rewrite Forall_forall in B1. specialize (B1 g' Hg). cbn beta in B1. lia. }
        assert (Bz : before_file t = []) by (unfold before_file; now rewrite Hf). rewrite Bz in *. cbn [app] in Ec, Cc. fold (joined g) in Ec, Cc.
        assert (Stw : starts (data_of n its) (joined whole)) by (rewrite Ge; exact St).
        assert (Sc : starts (collect (lenN (data_of n its)) [] (map snd g)) (joined whole)) by (rewrite Gx, joined_app, Ec; exists (cr ++ joined q); now rewrite <- app_assoc).
        destruct Fin as [-> |C].
        + rewrite app_nil_r in Ev. assert (Gw : whole = g) by (unfold whole; rewrite Ev; reflexivity). destruct Cc as [-> |Cc]; [now rewrite <- Gw|]. now apply (starts_len _ (joined whole)).
        + apply (starts_len _ (joined whole) _ Stw Sc). rewrite forallb_forall in C. specialize (C _ (get_in N.eqb N.eqb_eq n t' _ Gt')). cbn [snd] in C. unfold complete in C. destruct (m_file t') as [d|] eqn:Em'; [|discriminate C]. unfold before_file in Bf'. rewrite Em' in Bf'. rewrite <- Bf'. lia.
      - intros Hf (l' & o & (Cf' & _) & (a & x & b & El & Xn & St) & Lo). apply comparable_is in Cf' as (Cl' & _). rewrite Cl' in El. apply convs_split in El as (a' & x' & b' & El & Ea' & Eb' & Ex').
        assert (Ge : exists y, whole = y ++ (o, x) :: b).
        { rewrite Wh, El, filter_app. rewrite El in Cn. pose proof (frames_after n (all_items ms) 0) as Fz. rewrite El in Fz. destruct (after_split _ _ _ _ Fz Cn) as (_ & B2). cbn [fst] in B2. cbn [filter fst]. replace (m_offset t <=? o) with true by lia. rewrite (filter_every _ b') by (eapply Forall_impl; [|exact B2]; intros g' Hg; cbn beta in *; lia).
          rewrite convs_app. cbn [convs map fst snd]. fold (convs (header_of n its) (header_of n (all_items ms)) b'). rewrite Eb', Ex'. eauto. }
        destruct Ge as (y & Ge). assert (Bz : before_file t = []) by (unfold before_file; now rewrite Hf). rewrite Bz in *. cbn [app] in Ec, Cc. fold (joined g) in Ec, Cc.
        destruct Fin as [-> |C].
        + rewrite app_nil_r in Ev. assert (Gw : whole = g) by (unfold whole; rewrite Ev; reflexivity). destruct Cc as [-> |Cc]; [|exact Cc]. rewrite <- Gw, Ge, joined_app, lenN_app. destruct St as (r0 & St). replace (joined ((o, x) :: b)) with (x ++ joined b) by reflexivity. rewrite St, lenN_app. lia.
        + rewrite forallb_forall in C. specialize (C _ (get_in N.eqb N.eqb_eq n t' _ Gt')). cbn [snd] in C. unfold complete in C. destruct (m_file t') as [d|] eqn:Em'; [|discriminate C]. unfold before_file in Bf'. rewrite Em' in Bf'. rewrite <- Bf'. lia. }
    split.
    { split; [exact (proj1 Fs)|]. split; [|exact (proj2 (proj2 Fs))]. intros n Hn. destruct (Each n Hn) as (t & t' & Gt & Gt' & T1 & T2 & T3 & (X1 & X2 & X3 & _)). exists t'. split; [exact Gt'|]. rewrite X1, X2, X3. now repeat split. }
    split. { intros n Hn. destruct (Each n Hn) as (t & t' & Gt & Gt' & _ & _ & _ & X). exists t, t'. split; [exact Gt|]. split; [exact Gt'|exact X]. }
    rewrite As. split; [exact Nda|]. intros nm d Hd. apply A1. rewrite <- Af. apply Im2. exact Hd.
Qed.
Lemma extract_is its at_ f ms ts : movie_ok f ms -> in_movie held its (all_items ms) at_ -> located its at_ ts -> exists ts' atts, mkv_extract ts f = Ok (ts', atts) /\ filled its ts' /\ NoDup (map fst atts) /\ forall nm d, In (Some nm, d) (files_of its) -> get beqb nm atts = Ok (Some d).
Proof.
  intros M Im (Nd & Lo1 & Lo2). assert (Sy : Forall syn (all_items ms)) by (destruct M as (_ & F & _); destruct (parts_syn ms F) as (Ps & _); pose proof (looks_syn (fun _ _ => true) ms Ps 0) as Sa; now rewrite looks_all in Sa by reflexivity).
  destruct (extract_again its f ms ts M) as (ts' & atts & E & (Nd' & R1 & R2) & X & Na & At).
  - intros n Hn. destruct (proj1 Im n Hn) as (l & C & _). now exists l.
  - exact (proj2 Im).
  - split; [exact Nd|]. split; [|intros n t G D; apply (Lo2 n t G D)]. intros n Hn. destruct (Lo1 n Hn) as (t & Gt & T1 & _ & T3 & T4). exists t. split; [exact Gt|]. split; [rewrite T1; exact (place_real its (all_items ms) at_ n Sy Im Hn)|now split].
  - exists ts', atts. split; [exact E|]. split; [|now split]. split; [exact Nd'|]. split; [|exact R2]. intros n Hn. destruct (Lo1 n Hn) as (t & Gt & T1 & T2 & T3 & T4). destruct (X n Hn) as (u & t' & Gu & Gt' & (X1 & X2 & X3 & X4 & X5 & X6 & X7 & X8 & _)). assert (u = t) by congruence. subst u. destruct (proj1 Im n Hn) as (l & C & H).
    assert (Rc : reach (all_items ms) n (m_offset t)).
    { destruct H as (a & x & b & El & _). destruct C as (Cf & _). apply comparable_is in Cf as (Cl & _). rewrite Cl in El. apply convs_split in El as (a' & x' & b' & El & _). exists (at_ n), x'. rewrite El, T1. split; [apply in_elt|lia]. }
    specialize (X5 (or_intror Rc)). specialize (X8 T2). unfold before_file in X8. destruct (m_file t') as [d|] eqn:Ed; [|now destruct X5]. exists t', d. split; [exact Gt'|]. split; [exact Ed|]. split; [apply X8; exists l; split; [exact C|now rewrite T1]|congruence].
Qed.
