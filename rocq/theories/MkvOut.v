(** MkvOut: rebuilding a sample from its SRS and the files of its tracks and attachments. *)
From Verif Require Import Base BaseFacts Crc CrcFacts SrsRec SrsRecSpec SrsRecFacts Srs SrrFacts Ebml EbmlSpec EbmlFacts Mkv StrmSpec Mp3Spec MkvSpec MkvRead MkvSrs MkvLoad.

(** ** The steps *)
Definition rebuild' (s : rstate) (pos : N) (i : item) : result (rstate * bool) :=
  match i with
  | Open id w n => Ok (mkR (r_out s ++ header id w n) (r_files s) (r_atts s) (r_cur s), true)
  | Leaf id w d =>
    if beqb id RESAMPLE then Ok (s, true)
    else if beqb id file_contents then
      match r_cur s with
      | None => Err KeyError
      | Some name =>
        do a <- get beqb name (r_atts s);
        match a with
        | None => Err AttributeError
        | Some d' => Ok (mkR (r_out s ++ header id w (lenN d) ++ d') (r_files s) (put beqb name (Some []) (r_atts s)) (r_cur s), true)
        end
      end
    else Ok (mkR (r_out s ++ header id w (lenN d) ++ d) (r_files s) (r_atts s) (if beqb id file_name then Some d else r_cur s), true)
  | Blk b =>
    do d <- get N.eqb (k_no b) (r_files s);
    match d with
    | None => Err AttributeError
    | Some d =>
      let x := takeN (lenN (concat (k_frames b))) d in
      Ok (mkR (r_out s ++ header (k_id b) (k_w b) (blk_size b) ++ blk_head b ++ x) (put N.eqb (k_no b) (Some (dropN (lenN x) d)) (r_files s)) (r_atts s) (r_cur s), true)
    end
  end.
Definition rebuild_leaves := RESAMPLE :: tracks :: leaves.
Lemma read_at_take (d : bytes) n : read_at d 0 (Z.of_N n) = takeN n d.
Proof. unfold read_at. replace (Z.of_N n <? 0)%Z with false by lia. rewrite N2Z.id. apply sub_0. Qed.
Lemma rebuild_acts flags f its : has flags ATTACHMENTS_REMOVED = true -> Forall (kinds create_opens rebuild_leaves) its -> acts true (rebuild_step flags f) rebuild' f its.
Proof.
  intros Hf F its1 i its2 a b s Ei Ea E. rewrite Forall_forall in F. specialize (F i). rewrite Ei in F. specialize (F (in_elt i its1 its2)). destruct i as [id w n|id w d|bl].
  - cbn [kinds] in F. unfold rebuild_step, rebuild', id_in, id_is. change (e_id (ek (Open id w n) (lenN a))) with id. rewrite open_data.
    replace (beqb id RESAMPLE) with false by (repeat (destruct F as [<-|F]; [reflexivity|]); destruct F).
    match goal with |- context [existsb (beqb id) ?l] => assert (X : existsb (beqb id) l = true) end; [repeat (destruct F as [<-|F]; [reflexivity|]); destruct F|]. rewrite X. reflexivity.
  - destruct F as (F & Nu). unfold rebuild_step, rebuild', id_in, id_is. change (e_id (ek (Leaf id w d) (lenN a))) with id. destruct (beqb id RESAMPLE) eqn:C0.
    + apply beqb_eq in C0. subst id. rewrite (leaf_skip a true RESAMPLE w d) by reflexivity. reflexivity.
    + rewrite (kinds_plain rebuild_leaves [SEGMENT; ATTACHMENT_LIST; ATTACHMENT; BLOCK_GROUP; CLUSTER] id) by (exact F || reflexivity). change (e_block (ek (Leaf id w d) (lenN a))) with (@None block). cbv zeta. cbn [r_out r_files r_atts r_cur]. change (e_header (ek (Leaf id w d) (lenN a))) with (header id w (lenN d)). change file_contents with ATTACHED_FILE_DATA. destruct (beqb id ATTACHED_FILE_DATA) eqn:C1.
      * destruct (r_cur s) as [nm|]; [|reflexivity]. destruct (get beqb nm (r_atts s)) as [[d'|]|e]; try reflexivity. cbn [bind fst snd]. rewrite Hf, <- app_assoc. do 3 f_equal. rewrite leaf_data. cbn [enc]. unfold is_data. change file_contents with ATTACHED_FILE_DATA. rewrite C1. cbn [andb]. now rewrite app_nil_r.
      * rewrite (leaf_read f a b true id w d E) by (intros _; exact C1). cbn [fst snd bind]. now rewrite <- app_assoc.
  - cbn [kinds] in F. unfold rebuild_step, rebuild', id_in, id_is. change (e_id (ek (Blk bl) (lenN a))) with (k_id bl). rewrite <- (is_in (k_id bl) RESAMPLE), !(blk_plain bl F) by reflexivity. rewrite blk_data.
    cbn [ek e_block b_track b_header e_header e_length]. rewrite read_at_take || idtac. cbv zeta. cbn [r_out r_files r_atts r_cur]. destruct (get N.eqb (k_no bl) (r_files s)) as [[d|]|e]; try reflexivity. cbn [bind fst snd]. rewrite read_at_take, <- app_assoc. do 3 f_equal. change (e_pos (mkE (k_id bl) (Z.of_N (lenN (concat (k_frames bl)))) (header (k_id bl) (k_w bl) (blk_size bl)) (lenN a) (Some (mkB (k_no bl) (map Z.of_N (map lenN (k_frames bl))) (blk_head bl) false)))) with (e_data (ek (Blk bl) (lenN a))). rewrite ?blk_data. cbn [enc]. now rewrite app_nil_r.
Qed.

(** ** What comes out *)
Definition is_res (i : item) : bool := match i with Leaf id _ _ => beqb id RESAMPLE | _ => false end.
Definition kept (its : list item) : list item := filter (fun i => negb (is_res i)) its.
Lemma rebuild_exact its : forall pos s,
  (forall b, In (Blk b) its -> exists r, get N.eqb (k_no b) (r_files s) = Ok (Some (data_of (k_no b) its ++ r))) ->
  (forall nm d, In (nm, d) (attached_files (r_cur s) its) -> exists k, nm = Some k /\ get beqb k (r_atts s) = Ok (Some d)) -> NoDup (map fst (attached_files (r_cur s) its)) ->
  exists s', irun true never rebuild' its pos s = Ok s' /\ r_out s' = r_out s ++ bytes_of (kept its).
Proof.
  induction its as [|i its IH]; intros pos s Hb Ha Nd; cbn [irun]; [exists s; split; [reflexivity|now rewrite app_nil_r]|]. change (never s) with false. cbv iota.
  assert (G : forall s1 (x : bytes), rebuild' s pos i = Ok (s1, true) -> r_out s1 = r_out s ++ x -> bytes_of (kept (i :: its)) = x ++ bytes_of (kept its) ->
    (forall b, In (Blk b) its -> exists r, get N.eqb (k_no b) (r_files s1) = Ok (Some (data_of (k_no b) its ++ r))) ->
    (forall nm d, In (nm, d) (attached_files (r_cur s1) its) -> exists k, nm = Some k /\ get beqb k (r_atts s1) = Ok (Some d)) -> NoDup (map fst (attached_files (r_cur s1) its)) ->
    exists s', (do x <- rebuild' s pos i; if snd x then irun true never rebuild' its (pos + lenN (enc true i)) (fst x) else Ok (fst x)) = Ok s' /\ r_out s' = r_out s ++ bytes_of (kept (i :: its))).
  { intros s1 x E1 Eo Eb H1 H2 H3. rewrite E1. cbn [bind fst snd]. destruct (IH (pos + lenN (enc true i)) s1 H1 H2 H3) as (s' & E' & O'). exists s'. split; [exact E'|]. now rewrite O', Eo, Eb, <- app_assoc. }
  assert (Hb' : forall b, In (Blk b) its -> frames_of (k_no b) i = [] -> exists r, get N.eqb (k_no b) (r_files s) = Ok (Some (data_of (k_no b) its ++ r))).
  { intros b X Y. destruct (Hb b (or_intror X)) as (r & Er). exists r. rewrite Er, data_cons, Y. reflexivity. }
  destruct i as [id w n|id w d|b].
  - apply (G (mkR (r_out s ++ header id w n) (r_files s) (r_atts s) (r_cur s)) (header id w n)); try reflexivity; try assumption. intros b X. now apply Hb'.
  - assert (Hb2 : forall b, In (Blk b) its -> exists r, get N.eqb (k_no b) (r_files s) = Ok (Some (data_of (k_no b) its ++ r))) by (intros b X; now apply Hb'). cbn [rebuild'] in *. cbn [attached_files] in Ha, Nd. destruct (beqb id RESAMPLE) eqn:C0.
    + apply beqb_eq in C0. subst id. change (beqb RESAMPLE file_name) with false in *. change (beqb RESAMPLE file_contents) with false in *. cbv iota in *. apply (G s []); try reflexivity; try assumption. now rewrite app_nil_r.
    + assert (Kp : forall x : bytes, x = item_bytes (Leaf id w d) -> bytes_of (kept (Leaf id w d :: its)) = x ++ bytes_of (kept its)) by (intros x ->; cbn [kept filter is_res]; rewrite C0; reflexivity).
      destruct (beqb id file_contents) eqn:C1.
      * assert (C2 : beqb id file_name = false) by (apply beqb_eq in C1; now subst id). rewrite C2 in *. destruct (Ha (r_cur s) d (or_introl eq_refl)) as (k & Ek & Ga). rewrite Ek in *. rewrite Ga in *. cbn [bind] in *. inversion Nd as [|? ? Nk Nd']; subst.
        eapply G; [reflexivity|reflexivity|now apply Kp|exact Hb2| |exact Nd']. intros nm d' X. cbn [r_cur] in X. destruct (Ha nm d' (or_intror X)) as (k' & -> & Gk). exists k'. split; [reflexivity|]. cbn [r_atts]. rewrite (get_put_other beqb beqb_eq); [exact Gk|]. intros ->. apply Nk. now apply (in_map fst) in X.
      * eapply G; [reflexivity|reflexivity|now apply Kp|exact Hb2| |]; cbn [r_cur r_atts]; destruct (beqb id file_name); assumption.
  - cbn [rebuild'] in *. destruct (Hb b (or_introl eq_refl)) as (r & Er). rewrite Er in *. cbn [bind] in *.
    assert (Ed : data_of (k_no b) (Blk b :: its) ++ r = concat (k_frames b) ++ data_of (k_no b) its ++ r) by (rewrite data_cons; cbn [frames_of]; now rewrite N.eqb_refl, <- app_assoc). rewrite Ed in *. rewrite (takeN_app_exact (concat (k_frames b)) (data_of (k_no b) its ++ r) _ eq_refl), (dropN_app_exact (concat (k_frames b)) (data_of (k_no b) its ++ r) _ eq_refl) in *.
    eapply G; [reflexivity|cbn [r_out]; reflexivity|cbn [kept filter is_res negb]; rewrite bytes_cons; cbn [item_bytes]; reflexivity| |exact Ha|exact Nd].
    intros c X. cbn [r_files]. destruct (N.eq_dec (k_no c) (k_no b)) as [Ek|Nk].
    + rewrite Ek, (get_put_same N.eqb N.eqb_eq). now exists r.
    + rewrite (get_put_other N.eqb N.eqb_eq) by exact Nk. apply Hb'; [exact X|]. cbn [frames_of]. now replace (k_no b =? k_no c) with false by lia.
Qed.
Lemma rebuild_shaped its : forall pos s s',
  (forall b, In (Blk b) its -> exists d, get N.eqb (k_no b) (r_files s) = Ok (Some d) /\ lenN (data_of (k_no b) its) <= lenN d) ->
  irun true never rebuild' its pos s = Ok s' -> exists xs, r_out s' = r_out s ++ concat xs /\ Forall2 shaped (kept its) xs.
Proof.
  induction its as [|i its IH]; intros pos s s' Hb H; cbn [irun] in H; [apply ok_inj in H; subst s'; exists []; split; [symmetry; apply app_nil_r|constructor]|]. change (never s) with false in H. cbv iota in H.
  assert (Hb' : forall b, In (Blk b) its -> frames_of (k_no b) i = [] -> exists d, get N.eqb (k_no b) (r_files s) = Ok (Some d) /\ lenN (data_of (k_no b) its) <= lenN d).
  { intros b X Y. destruct (Hb b (or_intror X)) as (r & Er & L). exists r. split; [exact Er|]. rewrite data_cons, Y in L. exact L. }
  destruct i as [id w n|id w d|b]; cbn [rebuild'] in H.
  - cbn [bind fst snd] in H. apply IH in H as (xs & E & F); [|intros b X; now apply Hb']. exists (header id w n :: xs). split; [cbn [concat]; rewrite E; cbn [r_out]; now rewrite <- app_assoc|]. constructor; [reflexivity|exact F].
  - assert (Hb2 : forall b, In (Blk b) its -> exists d, get N.eqb (k_no b) (r_files s) = Ok (Some d) /\ lenN (data_of (k_no b) its) <= lenN d) by (intros b X; now apply Hb'). cbn [kept filter is_res]. destruct (beqb id RESAMPLE) eqn:C0; [cbn [bind fst snd] in H; now apply IH in H|]. cbn [negb].
    destruct (beqb id file_contents) eqn:C1.
    + destruct (r_cur s) as [nm|]; [|discriminate]. destruct (get beqb nm (r_atts s)) as [[d'|]|e]; try discriminate. cbn [bind fst snd] in H. apply IH in H as (xs & E & F); [|exact Hb2]. exists ((header id w (lenN d) ++ d') :: xs). split; [cbn [concat]; rewrite E; cbn [r_out]; now rewrite <- !app_assoc|]. constructor; [|exact F]. exists d'. split; [reflexivity|]. right. now apply beqb_eq.
    + cbn [bind fst snd] in H. apply IH in H as (xs & E & F); [|exact Hb2]. exists ((header id w (lenN d) ++ d) :: xs). split; [cbn [concat]; rewrite E; cbn [r_out]; now rewrite <- !app_assoc|]. constructor; [|exact F]. exists d. split; [reflexivity|]. now left.
  - destruct (Hb b (or_introl eq_refl)) as (d & Ed & L). rewrite Ed in H. cbn [bind fst snd] in H. rewrite data_cons in L. cbn [frames_of] in L. rewrite N.eqb_refl, lenN_app in L. apply IH in H as (xs & E & F).
    + eexists. split; [rewrite E; cbn [r_out]; rewrite <- app_assoc; f_equal; symmetry; apply concat_cons|]. cbn [kept filter is_res negb]. constructor; [|exact F]. eexists. split; [reflexivity|]. rewrite lenN_takeN. lia.
    + intros c X. cbn [r_files]. destruct (N.eq_dec (k_no c) (k_no b)) as [Ek|Nk].
      * rewrite Ek, (get_put_same N.eqb N.eqb_eq). eexists. split; [reflexivity|]. rewrite lenN_dropN, lenN_takeN. lia.
      * rewrite (get_put_other N.eqb N.eqb_eq) by exact Nk. apply Hb'; [exact X|]. cbn [frames_of]. now replace (k_no b =? k_no c) with false by lia.
Qed.

(** ** The items that are seen *)
Definition view (ps : list part) : list item := looks (in_groups [cluster; attachments]) 0 ps.
Lemma view_any ps : forall pos, looks (in_groups [cluster; attachments]) pos ps = view ps.
Proof.
  unfold view. generalize 0. induction ps as [|p ps IH]; intros q pos; [reflexivity|]. cbn [looks]. f_equal. apply IH.
Qed.
Lemma view_cons p ps : view (p :: ps) = look (in_groups [cluster; attachments] 0 p) p ++ view ps.
Proof. unfold view at 1. cbn [looks]. now rewrite view_any. Qed.
Definition mute (i : item) : Prop := (forall b, i <> Blk b) /\ match i with Leaf id _ _ => beqb id file_name = false /\ beqb id file_contents = false | _ => True end.
Lemma mute_data its : Forall mute its -> (forall n, data_of n its = []) /\ (forall cur its', attached_files cur (its ++ its') = attached_files cur its') /\ (forall b, ~ In (Blk b) its) /\ (forall cur, attached_files cur its = []).
Proof.
  induction 1 as [|i its (Hb & Hl) _ (I1 & I2 & I3 & I4)]; [split; [reflexivity|split; [reflexivity|split; [intros b []|reflexivity]]]|]. split; [|split; [|split]].
  - intros n. rewrite data_cons, I1. destruct i as [| |b]; [reflexivity|reflexivity|now destruct (Hb b)].
  - intros cur its'. cbn [app attached_files]. destruct i as [id w n|id w d|b]; try apply I2. destruct Hl as (-> & ->). apply I2.
  - intros b [X|X]; [exact (Hb b X)|exact (I3 b X)].
  - intros cur. cbn [attached_files]. destruct i as [id w n|id w d|b]; try apply I4. destruct Hl as (-> & ->). apply I4.
Qed.
Lemma tracks_mute its w : Forall (group_ok tracks) its -> Forall mute (items_of (Group tracks w its)).
Proof.
  intros F. cbn [items_of]. constructor; [split; [discriminate|exact I]|]. rewrite Forall_forall in *. intros i Hi. specialize (F i Hi). destruct F as [(_ & G) | [(X & _) | (X & _)]]; try discriminate X. destruct i as [id' w' n|id' w' d|b].
  - split; [discriminate|exact I].
  - split; [discriminate|]. destruct G as (_ & _ & P & _). split; rewrite <- is_in; now apply (kinds_plain [track_number; codec; algorithm; settings]).
  - destruct G as ([] & _).
Qed.
Lemma view_data ps : Forall part_ok ps -> (forall n, data_of n (view ps) = data_of n (all_items ps)) /\ (forall cur, attached_files cur (view ps) = attached_files cur (all_items ps)) /\ (forall b, In (Blk b) (view ps) <-> In (Blk b) (all_items ps)).
Proof.
  induction 1 as [|p ps H _ (I1 & I2 & I3)]; [split; [reflexivity|split; reflexivity]|]. rewrite view_cons, all_cons.
  assert (Same : look (in_groups [cluster; attachments] 0 p) p = items_of p \/ (Forall mute (look (in_groups [cluster; attachments] 0 p) p) /\ Forall mute (items_of p))).
  { destruct p as [i|id w its]; [now left|]. cbn [look in_groups]. destruct (existsb (beqb id) [cluster; attachments]) eqn:E; [now left|]. cbn [part_ok] in H. destruct H as (Ig & _ & G & _). destruct Ig as [<-|[<-|[<-|[]]]]; try discriminate E. right. split; [|now apply tracks_mute]. constructor; [|constructor]. split; [discriminate|split; reflexivity]. }
  destruct Same as [->|(M1 & M2)].
  - split; [intros n; now rewrite !data_app, I1|]. split; [|intros b; rewrite !in_app_iff, I3; reflexivity].
    assert (A : forall its x y, (forall cur, attached_files cur x = attached_files cur y) -> forall cur, attached_files cur (its ++ x) = attached_files cur (its ++ y)).
    { clear. induction its as [|i its IH]; intros x y E cur; [apply E|]. cbn [app attached_files]. destruct i as [id w n|id w d|b]; try now apply IH. destruct (beqb id file_name); [now apply IH|]. destruct (beqb id file_contents); [f_equal; now apply IH|now apply IH]. }
    intros cur. now apply A.
  - apply mute_data in M1 as (A1 & A2 & A3 & _). apply mute_data in M2 as (B1 & B2 & B3 & _). split; [intros n; now rewrite !data_app, A1, B1, I1|]. split; [intros cur; now rewrite A2, B2, I2|]. intros b. rewrite !in_app_iff, I3. specialize (A3 b). specialize (B3 b). tauto.
Qed.
Lemma shaped_refl its : Forall2 shaped its (map item_bytes its).
Proof. induction its as [|i its IH]; [constructor|]. constructor; [|exact IH]. destruct i as [id w n|id w d|b]; [reflexivity|exists d; split; [reflexivity|now left]|]. exists (concat (k_frames b)). now split. Qed.
Lemma view_shaped ps : Forall part_ok ps -> forall xs, Forall2 shaped (view ps) xs -> exists xs', concat xs = concat xs' /\ Forall2 shaped (all_items ps) xs'.
Proof.
  induction 1 as [|p ps H _ IH]; intros xs F; [inversion F; subst; exists []; split; [reflexivity|constructor]|]. rewrite view_cons in F. apply Forall2_app_inv_l in F as (x1 & x2 & F1 & F2 & ->). destruct (IH x2 F2) as (y2 & E2 & G2). rewrite all_cons.
  assert (Same : exists y1, concat x1 = concat y1 /\ Forall2 shaped (items_of p) y1).
  { destruct p as [i|id w its]; [now exists x1|]. cbn [look in_groups] in F1. destruct (existsb (beqb id) [cluster; attachments]) eqn:E; [now exists x1|]. cbn [part_ok] in H. destruct H as (Ig & _ & G & _). destruct Ig as [<-|[<-|[<-|[]]]]; try discriminate E.
    inversion F1 as [|? y ? ? Sx F1']; subst. inversion F1'; subst. cbn [shaped] in Sx. destruct Sx as (d' & -> & [-> | X]); [|discriminate X]. exists (map item_bytes (items_of (Group tracks w its))). split; [|apply shaped_refl]. cbn [items_of map concat item_bytes]. now rewrite app_nil_r. }
  destruct Same as (y1 & E1 & G1). exists (y1 ++ y2). rewrite !concat_app. split; [now rewrite E1, E2|now apply Forall2_app].
Qed.

(** ** The whole *)
Definition seen_items (a : list part) (w : nat) (size : N) (wr : nat) (added : list item) (b : list part) : list item :=
  all_items a ++ Open segment w size :: Leaf RESAMPLE wr (bytes_of added) :: view b.
Lemma filter_all {A} (g : A -> bool) l : (forall x, In x l -> g x = true) -> filter g l = l.
Proof. induction l as [|x l IH]; intros H; [reflexivity|]. cbn [filter]. rewrite (H x (or_introl eq_refl)). f_equal. apply IH. intros y Hy. apply H. now right. Qed.
Lemma leaves_view a : Forall (fun p => exists id w d, p = One (Leaf id w d)) a -> view a = all_items a.
Proof. induction 1 as [|p a (id & w' & d & ->) _ IH]; [reflexivity|]. rewrite view_cons, all_cons, IH. reflexivity. Qed.
Section Whole.
Variables (ps a b : list part) (w wr : nat) (size : N) (added : list item) (srs : bytes).
Hypothesis F : Forall part_ok ps.
Hypothesis Ep : ps = a ++ One (Open segment w size) :: b.
Hypothesis Ha : Forall (fun p => exists id w d, p = One (Leaf id w d)) a.
Hypothesis Ad : Forall added_leaf added.
Hypothesis V : vint_ok wr (lenN (bytes_of added)).
Hypothesis Es : srs = encs true (srs_items a w size wr added (all_items b)).
Lemma whole_parts : Forall part_ok a /\ Forall part_ok b /\ part_ok (One (Open segment w size)).
Proof using F Ep. rewrite Ep in F. apply Forall_app in F as (Fa & Fb). inversion Fb. auto. Qed.
Lemma whole_view : view a = all_items a.
Proof using Ha. exact (leaves_view a Ha). Qed.
Lemma view_ps : view ps = all_items a ++ Open segment w size :: view b.
Proof using Ep Ha. rewrite Ep. unfold view at 1. rewrite looks_app, !view_any, whole_view, view_cons. reflexivity. Qed.
Lemma seen_run flags s : has flags ATTACHMENTS_REMOVED = true -> ebml_run false never (rebuild_step flags srs) srs s = irun true never rebuild' (seen_items a w size wr added b) 0 s.
Proof using F Ep Ha Ad V Es.
  intros Hf. destruct whole_parts as (Fa & Fb & Fs). destruct (parts_syn a Fa) as (Pa & _). destruct (parts_syn b Fb) as (Pb & _).
  apply (run_items false true never _ rebuild' srs (seen_items a w size wr added b) []).
  - rewrite app_nil_r, Es. unfold srs_items, seen_items. rewrite !encs_app, !encs_cons, encs_app, (added_enc added Ad). unfold view. rewrite create_view by exact Fb. cbn [enc]. change (is_data RESAMPLE) with false. cbn [andb]. now rewrite <- !app_assoc.
  - reflexivity.
  - unfold seen_items. apply Forall_app. split; [rewrite <- whole_view; now apply looks_syn|]. constructor; [now apply part_syn in Fs|]. constructor; [split; [apply special_id; apply (incl_b [RESAMPLE] special eq_refl); now left|]; split; [now apply special_no_block|exact V]|now apply looks_syn].
  - discriminate.
  - apply rebuild_acts; [exact Hf|]. unfold seen_items.
    assert (K : forall l, Forall part_ok l -> Forall (kinds create_opens rebuild_leaves) (view l)).
    { intros l Fl. apply looks_kinds; [exact Fl|now left|intros y Hy; right; now right|]. intros pos id w' its I. cbn [in_groups]. destruct I as [<-|[<-|[<-|[]]]]; cbn [existsb beqb]; vm_compute; tauto. }
    apply Forall_app. split; [rewrite <- whole_view; now apply K|]. constructor; [now left|]. constructor; [|now apply K]. split; [right; now left|]. intros [X|X]; discriminate X.
Qed.
Lemma kept_seen : kept (seen_items a w size wr added b) = view ps.
Proof using F Ep Ha.
  assert (K : forall l, Forall part_ok l -> kept (view l) = view l).
  { intros l Fl. unfold kept. apply filter_all. intros i Hi. assert (Kd : Forall (kinds create_opens (tracks :: leaves)) (view l)).
    { apply looks_kinds; [exact Fl|now left|intros y Hy; now right|]. intros pos id w' its I. cbn [in_groups]. destruct I as [<-|[<-|[<-|[]]]]; cbn [existsb beqb]; vm_compute; tauto. }
    rewrite Forall_forall in Kd. specialize (Kd i Hi). destruct i as [id w' n|id w' d|bl]; try reflexivity. cbn [is_res]. destruct Kd as (Kd & _). apply negb_true_iff. rewrite <- is_in. now apply (kinds_plain (tracks :: leaves)). }
  destruct whole_parts as (Fa & Fb & _). unfold seen_items. rewrite view_ps. unfold kept. rewrite filter_app. cbn [filter is_res negb]. change (beqb RESAMPLE RESAMPLE) with true. cbn [negb]. f_equal; [rewrite <- whole_view; exact (K a Fa)|]. f_equal. exact (K b Fb).
Qed.
Lemma seen_same : (forall n, data_of n (seen_items a w size wr added b) = data_of n (all_items ps)) /\ (forall cur, attached_files cur (seen_items a w size wr added b) = attached_files cur (all_items ps)) /\ (forall bl, In (Blk bl) (seen_items a w size wr added b) <-> In (Blk bl) (all_items ps)).
Proof using F Ep Ha.
  destruct (view_data ps F) as (D & A & B). split; [|split].
  - intros n. rewrite <- D, view_ps. unfold seen_items. rewrite !data_app, !data_cons. reflexivity.
  - intros cur. rewrite <- A, view_ps. unfold seen_items. clear. revert cur. generalize (all_items a). induction l as [|i l IH]; intros cur; [reflexivity|]. cbn [app attached_files]. destruct i as [id w' n|id w' d|bl]; try apply IH. destruct (beqb id file_name); [apply IH|]. destruct (beqb id file_contents); [f_equal; apply IH|apply IH].
  - intros bl. rewrite <- B, view_ps. unfold seen_items. rewrite !in_app_iff. cbn [In]. split; [intros [X|[X|[X|X]]]; auto; discriminate X|intros [X|[X|X]]; auto].
Qed.
Lemma rebuild_back flags (ts : mtracks) atts : has flags ATTACHMENTS_REMOVED = true ->
  (forall bl, In (Blk bl) (all_items ps) -> exists t d, get N.eqb (k_no bl) ts = Ok t /\ m_file t = Some d /\ starts (data_of (k_no bl) (all_items ps)) d) ->
  (forall nm d, In (nm, d) (files_of (all_items ps)) -> exists k, nm = Some k /\ get beqb k atts = Ok (Some d)) -> NoDup (map fst (files_of (all_items ps))) ->
  mkv_rebuild flags ts atts srs = Ok (file_of ps).
Proof using F Ep Ha Ad V Es.
  intros Hf Ht Hat Nd. unfold mkv_rebuild. rewrite seen_run by exact Hf. destruct seen_same as (D & A & B).
  destruct (rebuild_exact (seen_items a w size wr added b) 0 (mkR [] (map (fun t => (fst t, m_file (snd t))) ts) atts None)) as (s' & E & O); cbn [r_files r_atts r_cur].
  - intros bl Hb. apply B in Hb. destruct (Ht bl Hb) as (t & d & G & Ef & (r & Er)). exists r. rewrite D, (get_map (fun _ t => m_file t)), G. cbn [bind]. now rewrite Ef, Er.
  - rewrite A. exact Hat.
  - rewrite A. exact Nd.
  - rewrite E. cbn [bind]. rewrite O. cbn [r_out app]. rewrite kept_seen. unfold view. now rewrite looks_bytes.
Qed.
Lemma rebuild_like flags (ts : mtracks) atts out : has flags ATTACHMENTS_REMOVED = true ->
  (forall bl, In (Blk bl) (all_items ps) -> exists t d, get N.eqb (k_no bl) ts = Ok t /\ m_file t = Some d /\ lenN (data_of (k_no bl) (all_items ps)) <= lenN d) ->
  mkv_rebuild flags ts atts srs = Ok out -> exists xs, out = concat xs /\ Forall2 shaped (all_items ps) xs.
Proof using F Ep Ha Ad V Es.
  intros Hf Ht H. unfold mkv_rebuild in H. rewrite seen_run in H by exact Hf. destruct seen_same as (D & A & B). bindinv H. apply ok_inj in H. subst out. apply rebuild_shaped in E as (xs & E & G).
  - rewrite kept_seen in G. rewrite E. cbn [r_out app]. destruct (view_shaped ps F xs G) as (ys & E2 & G2). exists ys. now split.
  - cbn [r_files]. intros bl Hb. apply B in Hb. destruct (Ht bl Hb) as (t & d & G & Ef & L). exists d. rewrite (get_map (fun _ t => m_file t)), G. cbn [bind]. rewrite Ef, D. now split.
Qed.
End Whole.
