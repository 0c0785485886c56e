(** Editing an SRR file, as functions on lists of blocks. *)
From Verif Require Import Base BaseFacts Path Crc Rar RarSpec ReadSpec RarFacts NameFacts ReadFacts
  ReadAllFacts Srr SrrSpec SrrFacts.

(** ** Blocks of a well formed file *)
Lemma head_ty_not hd t : head_ok hd -> In t [0x69; 0x6A; 0x6B; 0x6C; 0x71] -> head_ty hd <> t.
Proof.
  intros H Ht E. destruct hd; cbn [head_ty] in E; try (subst t; cbn [In] in Ht;
    repeat (destruct Ht as [Ht|Ht]; [discriminate|]); exact Ht).
  destruct H as [_ (Hty & _)]. apply Hty. subst t. cbn [In] in *. intuition.
Qed.
Lemma sblk_type pos i : b_type (sblk pos i) = s_ty i.
Proof. reflexivity. Qed.
Lemma is_stored_sblk pos i : sitem_ok i -> is_stored (sblk pos i) = is_sstored i.
Proof.
  intros [_ H]. unfold is_stored. rewrite sblk_type. destruct i; try reflexivity.
  cbn [s_ty is_sstored]. apply N.eqb_neq. apply head_ty_not; [assumption|cbn; auto 10].
Qed.
Lemma is_header_sblk pos i : sitem_ok i -> is_header (sblk pos i) = is_sapp i.
Proof.
  intros [_ H]. unfold is_header. rewrite sblk_type. destruct i; try reflexivity.
  cbn [s_ty is_sapp]. apply N.eqb_neq. apply head_ty_not; [assumption|cbn; auto 10].
Qed.
Lemma is_rar_sblk pos i : sitem_ok i -> (b_type (sblk pos i) =? T_SrrRarFile) = is_srar i.
Proof.
  intros [_ H]. rewrite sblk_type. destruct i; try reflexivity.
  cbn [s_ty is_srar]. apply N.eqb_neq. apply head_ty_not; [assumption|cbn; auto 10].
Qed.
Definition stored_view (i : sitem) : option (N * text) :=
  match i with SStored _ _ n d _ => Some (lenN d, n) | _ => None end.
Lemma stored_of_sblk pos i : sitem_ok i -> stored_of (sblk pos i) = Ok (stored_view i).
Proof.
  intros H. unfold stored_of. rewrite is_stored_sblk by assumption. destruct i; reflexivity.
Qed.

Lemma srr_data_sblk pre c f n d e post :
  srr_data (pre ++ ser_sitem (SStored c f n d e) ++ post) (sblk (lenN pre) (SStored c f n d e)) = d.
Proof.
  unfold srr_data. set (i := SStored c f n d e). cbn [sblk b_kind b_pos b_hsize s_kind i].
  rewrite ser_sitem_hdr, <- app_assoc, (app_assoc pre).
  unfold sub. rewrite dropN_app_exact.
  - cbn [s_data]. now rewrite takeN_app_exact by reflexivity.
  - now rewrite lenN_app, lenN_s_hdr.
Qed.
Lemma copy_block_sblk pre i post :
  sitem_ok i -> copy_block (pre ++ ser_sitem i ++ post) (sblk (lenN pre) i) = ser_sitem i.
Proof.
  intros H. unfold copy_block. rewrite is_stored_sblk by assumption.
  destruct i; cbn [is_sstored]; try (cbn [sblk b_raw s_raw]; now rewrite app_nil_r).
  rewrite srr_data_sblk. reflexivity.
Qed.

(** same, in the middle of a list *)
Ltac next_pre IH :=
  rewrite ?ser_srr_cons, ?(app_assoc _ (ser_sitem _)), <- ?lenN_app.

(** ** Adding *)
Lemma add_loop_true l : forall pre new,
  Forall sitem_ok l -> add_loop (pre ++ ser_srr l) new true (sblks (lenN pre) l) = ser_srr l.
Proof.
  induction l as [|i l IH]; intros pre new H; [reflexivity|]. inversion_clear H.
  cbn [sblks add_loop negb]. rewrite andb_false_r, ser_srr_cons, copy_block_sblk by assumption.
  f_equal. rewrite app_assoc, <- lenN_app. now apply IH.
Qed.
Lemma add_loop_ok l : forall pre new,
  Forall sitem_ok l ->
  add_loop (pre ++ ser_srr l) (ser_srr new) false (sblks (lenN pre) l) = ser_srr (add_items new l).
Proof.
  induction l as [|i l IH]; intros pre new H; [reflexivity|]. inversion_clear H.
  cbn [sblks add_loop add_items negb]. rewrite is_rar_sblk, andb_true_r by assumption.
  destruct (is_srar i) eqn:E.
  - rewrite ser_srr_app, !ser_srr_cons, copy_block_sblk by assumption. f_equal. f_equal.
    rewrite app_assoc, <- lenN_app. now apply add_loop_true.
  - rewrite !ser_srr_cons, copy_block_sblk by assumption. f_equal.
    rewrite app_assoc, <- lenN_app. now apply IH.
Qed.

Lemma srr_blocks_ok l : srr_ok l -> srr_blocks (ser_srr l) = Ok (sblks 0 l).
Proof.
  intros H. unfold srr_blocks. rewrite mode_srr by assumption. cbn [bind mode_eqb].
  now apply read_all_srr.
Qed.

Lemma stored_names_cons i l :
  stored_names (i :: l) = match i with SStored _ _ n _ _ => [n] | _ => [] end ++ stored_names l.
Proof. reflexivity. Qed.

Definition no_dupe (names : list text) (n : text) : Prop :=
  exists p, srr_os_file_name n = Ok p /\ ~ In p names.
Lemma dupe_check_ok names l : forall pos,
  Forall sitem_ok l ->
  (dupe_check names (sblks pos l) = Ok tt <-> Forall (no_dupe names) (stored_names l)).
Proof.
  induction l as [|i l IH]; intros pos H; [split; [constructor|reflexivity]|]. inversion_clear H.
  cbn [sblks dupe_check]. rewrite stored_of_sblk by assumption. cbn [bind].
  rewrite stored_names_cons.
  destruct i as [| c f n d e | | | |]; cbn [stored_view app]; try (apply IH; assumption).
  rewrite Forall_cons_iff, <- (IH (pos + lenN (ser_sitem (SStored c f n d e)))) by assumption.
  unfold no_dupe at 1. destruct (srr_os_file_name n) as [p|x]; cbn [bind].
  - destruct (mem_text p names) eqn:M.
    + split; [discriminate|]. intros [(q & E & Hn) _]. apply ok_inj in E. subst q. now apply mem_text_In in M.
    + split; [|tauto]. intros HH. split; [|assumption]. exists p. split; [reflexivity|].
      intros Hin. apply mem_text_In in Hin. congruence.
  - split; [discriminate|]. intros [(q & E & _) _]. discriminate.
Qed.

Lemma mapR_inv {A B} (f : A -> result B) l r : mapR f l = Ok r -> Forall2 (fun x y => f x = Ok y) l r.
Proof.
  revert r; induction l as [|x l IH]; cbn [mapR]; intros r H.
  - apply ok_inj in H. subst. constructor.
  - bindinv H. bindinv H. apply ok_inj in H. subst. constructor; auto.
Qed.
Lemma mapR_ok {A B} (f : A -> result B) (g : A -> B) l :
  Forall (fun x => f x = Ok (g x)) l -> mapR f l = Ok (map g l).
Proof. induction 1 as [|x l Hx _ IH]; cbn [mapR map]; [reflexivity|]. now rewrite Hx, IH. Qed.

Lemma store_all_inv files r :
  mapR store_bytes files = Ok r ->
  concat r = ser_srr (map stored_item files) /\ Forall sitem_ok (map stored_item files).
Proof.
  intros H. apply mapR_inv in H. induction H as [|nd b files r Hs _ [IH1 IH2]]; [split; constructor|].
  apply store_inv in Hs as [-> Hok]. cbn [concat map]. rewrite ser_srr_cons, IH1. split; [reflexivity|].
  now constructor.
Qed.

Lemma add_inv l names files out :
  srr_ok l -> add_stored_files (ser_srr l) names files = Ok out ->
  out = ser_srr (add_items (map stored_item files) l) /\
  Forall (no_dupe names) (stored_names l) /\ Forall sitem_ok (map stored_item files).
Proof.
  intros Hl H. unfold add_stored_files in H. rewrite srr_blocks_ok in H by assumption. cbn [bind] in H.
  bindinv H. destruct Hl as (_ & Hok & _). destruct v. apply dupe_check_ok in E; [|assumption].
  bindinv H. apply store_all_inv in E0 as [E0 Hf]. apply ok_inj in H. rewrite E0 in H. subst out.
  split; [|split; assumption]. now apply (add_loop_ok l []).
Qed.
Lemma add_ok l names files :
  srr_ok l -> Forall (no_dupe names) (stored_names l) ->
  Forall (fun nd => stored_name_ok (fst nd) /\ lenN (snd nd) < 4294967296) files ->
  add_stored_files (ser_srr l) names files = Ok (ser_srr (add_items (map stored_item files) l)).
Proof.
  intros Hl Hd Hf. unfold add_stored_files. rewrite srr_blocks_ok by assumption. cbn [bind].
  destruct Hl as (_ & Hok & _). rewrite (proj2 (dupe_check_ok names l 0 Hok) Hd). cbn [bind].
  rewrite (mapR_ok _ (fun nd => ser_sitem (stored_item nd))).
  - cbn [bind]. f_equal. rewrite <- (map_map stored_item ser_sitem). fold (ser_srr (map stored_item files)).
    now apply (add_loop_ok l []).
  - eapply Forall_impl; [|exact Hf]. intros nd [H1 H2]. now apply store_ok.
Qed.

(** an edited file is again well formed *)
Lemma recov_mono l : recov_removed false l -> forall c, recov_removed c l.
Proof.
  induction l as [|i l IH]; intros H c; [exact I|].
  destruct i; cbn [recov_removed] in *; try (now apply IH); try assumption.
  destruct H as [H1 H2]. split; [|now apply IH]. intros E. now specialize (H1 E).
Qed.
Lemma recov_app a : forall b c, recov_removed c a -> recov_removed false b -> recov_removed c (a ++ b).
Proof.
  induction a as [|i a IH]; intros b c Ha Hb; [now apply recov_mono|].
  destruct i; cbn [recov_removed app] in *; try (now apply IH).
  destruct Ha. split; [assumption|now apply IH].
Qed.
Lemma recov_stored l : Forall (fun i => is_sstored i = true) l ->
  forall b c, recov_removed c b -> recov_removed c (l ++ b).
Proof.
  induction 1 as [|i l Hi _ IH]; intros b c Hb; [assumption|].
  destruct i; try discriminate. cbn [app recov_removed]. now apply IH.
Qed.
Lemma recov_add new l : Forall (fun i => is_sstored i = true) new ->
  forall c, recov_removed c l -> recov_removed c (add_items new l).
Proof.
  intros Hn. induction l as [|i l IH]; intros c H; cbn [add_items].
  - rewrite <- (app_nil_r new). now apply recov_stored.
  - destruct (is_srar i) eqn:E; [now apply recov_stored|].
    destruct i; try discriminate; cbn [recov_removed] in *; try (now apply IH).
    destruct H. split; [assumption|now apply IH].
Qed.
Lemma recov_filter p l : (forall i, p i = false -> is_srar i = false) ->
  forall c, recov_removed c l -> recov_removed c (filter p l).
Proof.
  intros Hp. induction l as [|i l IH]; intros c H; [exact I|]. cbn [filter].
  destruct (p i) eqn:E.
  - destruct i; cbn [recov_removed] in *; try (now apply IH). destruct H. split; [assumption|now apply IH].
  - apply Hp in E. destruct i; try discriminate; cbn [recov_removed] in *; try (now apply IH).
Qed.
Lemma add_items_len new l : lenN (ser_srr (add_items new l)) = lenN (ser_srr new) + lenN (ser_srr l).
Proof.
  induction l as [|i l IH]; cbn [add_items].
  - change (lenN (ser_srr [])) with 0. lia.
  - destruct (is_srar i); [now rewrite ser_srr_app, lenN_app|].
    rewrite !lenN_ser_srr_cons, IH. lia.
Qed.
Lemma add_items_ok new l : Forall sitem_ok new -> Forall sitem_ok l -> Forall sitem_ok (add_items new l).
Proof.
  intros Hn. induction 1 as [|i l Hi Hl IH]; cbn [add_items]; [assumption|].
  destruct (is_srar i); [apply Forall_app; split; [assumption|now constructor]|now constructor].
Qed.
Lemma add_items_srr_ok files l :
  srr_ok l -> Forall sitem_ok (map stored_item files) -> srr_ok (add_items (map stored_item files) l).
Proof.
  intros (Hh & Hok & Hr & Hl) Hf. split; [|split; [|split]].
  - destruct Hh as (c & f & n & e & l' & ->). cbn [add_items is_srar]. eauto 8.
  - now apply add_items_ok.
  - apply recov_add; [|assumption]. apply Forall_forall. intros i Hi. apply in_map_iff in Hi as (nd & <- & _).
    reflexivity.
  - rewrite add_items_len. lia.
Qed.

(** ** Removing *)
Lemma named_mem names c f n d e : named names (SStored c f n d e) = mem_text n names.
Proof.
  cbn [named]. destruct (in_dec text_dec n names) as [H|H].
  - apply mem_text_In in H. now rewrite H.
  - destruct (mem_text n names) eqn:E; [|reflexivity]. apply mem_text_In in E. contradiction.
Qed.
Lemma remove_loop_ok names l : forall pre,
  Forall sitem_ok l ->
  remove_loop (pre ++ ser_srr l) names (sblks (lenN pre) l) = Ok (ser_srr (remove_items names l)).
Proof.
  induction l as [|i l IH]; intros pre H; [reflexivity|]. inversion_clear H.
  cbn [sblks remove_loop]. rewrite stored_of_sblk by assumption. cbn [bind].
  pose proof (copy_block_sblk pre i (ser_srr l) H0) as Hc. unfold copy_block in Hc.
  rewrite is_stored_sblk in Hc by assumption.
  rewrite ser_srr_cons. specialize (IH (pre ++ ser_sitem i) H1).
  rewrite <- app_assoc, lenN_app in IH. rewrite IH. cbn [bind].
  unfold remove_items. cbn [filter]. fold (remove_items names l).
  destruct i as [| c f n d e | | | |]; cbn [stored_view named negb] in *;
    try (cbn [is_sstored] in Hc; rewrite app_nil_r in Hc; rewrite Hc; reflexivity).
  fold (named names (SStored c f n d e)). rewrite named_mem. destruct (mem_text n names); cbn [negb]; [reflexivity|].
  cbn [is_sstored] in Hc. rewrite app_assoc, Hc, ser_srr_cons. reflexivity.
Qed.
Lemma remove_ok l names :
  srr_ok l -> remove_stored_files (ser_srr l) names = Ok (ser_srr (remove_items names l)).
Proof.
  intros H. unfold remove_stored_files. rewrite srr_blocks_ok by assumption. cbn [bind].
  destruct H as (_ & Hok & _). now apply (remove_loop_ok names l []).
Qed.
Lemma remove_items_srr_ok names l :
  srr_ok l -> 20 <= lenN (ser_srr (remove_items names l)) -> srr_ok (remove_items names l).
Proof.
  intros (Hh & Hok & Hr & _) Hl. split; [|split; [|split]]; try assumption.
  - destruct Hh as (c & f & n & e & l' & ->). unfold remove_items. cbn [filter named negb]. eauto 8.
  - unfold remove_items. apply Forall_forall. intros i Hi. apply filter_In in Hi as [Hi _].
    rewrite Forall_forall in Hok. auto.
  - apply recov_filter; [|assumption]. intros i. destruct i; try reflexivity. discriminate.
Qed.
Lemma remove_add names files l :
  Forall (fun nd => In (fst nd) names) files ->
  Forall (fun n => ~ In n names) (stored_names l) ->
  remove_items names (add_items (map stored_item files) l) = l.
Proof.
  intros Hf.
  assert (Hr : forall l', remove_items names (map stored_item files ++ l') = remove_items names l').
  { induction Hf as [|nd files Hnd _ IH]; intros l'; [reflexivity|]. cbn [map app].
    unfold remove_items in *. cbn [filter]. unfold stored_item at 1. cbn [named].
    destruct (in_dec text_dec (fst nd) names); [|contradiction]. cbn [negb]. apply IH. }
  assert (Hk : forall i l', named names i = false -> remove_items names (i :: l') = i :: remove_items names l').
  { intros i l' E. unfold remove_items. cbn [filter]. now rewrite E. }
  assert (Hid : forall l, Forall (fun n => ~ In n names) (stored_names l) ->
      remove_items names l = l).
  { clear l. induction l as [|i l IH]; intros H; [reflexivity|]. rewrite stored_names_cons in H.
    apply Forall_app in H as [H1 H2]. rewrite Hk; [now rewrite IH|].
    destruct i; try reflexivity. inversion_clear H1. cbn [named]. now destruct (in_dec text_dec name names). }
  induction l as [|i l IH]; intros H; cbn [add_items].
  - rewrite <- (app_nil_r (map _ _)), Hr. reflexivity.
  - destruct (is_srar i); [rewrite Hr; now apply Hid|].
    rewrite stored_names_cons in H. apply Forall_app in H as [H1 H2].
    rewrite Hk; [now rewrite IH|].
    destruct i; try reflexivity. inversion_clear H1. cbn [named]. now destruct (in_dec text_dec name names).
Qed.

(** ** Renaming *)
Lemma find_none old l : forall pos, Forall sitem_ok l -> ~ In old (stored_names l) ->
  find_stored old (sblks pos l) = Ok None.
Proof.
  induction l as [|i l IH]; intros pos H Hn; [reflexivity|]. inversion_clear H.
  cbn [sblks find_stored]. rewrite stored_of_sblk by assumption. cbn [bind].
  rewrite stored_names_cons, in_app_iff in Hn.
  destruct i; cbn [stored_view]; try (apply IH; tauto).
  destruct (teqb name old) eqn:E; [|apply IH; tauto].
  apply teqb_eq in E. subst. exfalso. apply Hn. left. now left.
Qed.
Lemma find_some old l : forall pre, Forall sitem_ok l -> In old (stored_names l) ->
  exists a c f d e b, l = a ++ SStored c f old d e :: b /\ ~ In old (stored_names a) /\
    find_stored old (sblks (lenN pre) l) =
      Ok (Some (sblk (lenN (pre ++ ser_srr a)) (SStored c f old d e), lenN d)).
Proof.
  induction l as [|i l IH]; intros pre H Hn; [destruct Hn|]. inversion_clear H.
  cbn [sblks find_stored]. rewrite stored_of_sblk by assumption. cbn [bind].
  rewrite stored_names_cons, in_app_iff in Hn.
  assert (Hrec : In old (stored_names l) -> (match i with SStored _ _ n _ _ => n <> old | _ => True end) ->
    exists a c f d e b, i :: l = a ++ SStored c f old d e :: b /\ ~ In old (stored_names a) /\
    find_stored old (sblks (lenN pre + lenN (ser_sitem i)) l) =
      Ok (Some (sblk (lenN (pre ++ ser_srr a)) (SStored c f old d e), lenN d))).
  { intros Hin Hi. destruct (IH (pre ++ ser_sitem i) H1 Hin) as (a & c & f & d & e & b & -> & Ha & E).
    exists (i :: a), c, f, d, e, b. split; [reflexivity|]. split.
    - rewrite stored_names_cons, in_app_iff. intros [X|X]; [|contradiction].
      destruct i; now destruct X.
    - rewrite ser_srr_cons, app_assoc, <- lenN_app. exact E. }
  destruct i as [| c f n d e | | | |]; cbn [stored_view] in *;
    try (apply Hrec; [destruct Hn as [[]|Hn]; exact Hn|exact I]).
  destruct (teqb n old) eqn:E.
  - apply teqb_eq in E. subst n. exists [], c, f, d, e, l. split; [reflexivity|]. split; [intros []|].
    change (ser_srr []) with (@nil byte). now rewrite app_nil_r.
  - assert (n <> old) by (intros X; subst; rewrite (proj2 (teqb_eq old old)) in E; congruence).
    apply Hrec; [|assumption]. destruct Hn as [[Hn|[]]|Hn]; [congruence|exact Hn].
Qed.
Lemma rename_items_app old new a c f d e b :
  ~ In old (stored_names a) ->
  rename_items old new (a ++ SStored c f old d e :: b) = a ++ stored_item (new, d) :: b.
Proof.
  induction a as [|i a IH]; intros H; cbn [app rename_items].
  - now destruct (text_dec old old).
  - rewrite stored_names_cons, in_app_iff in H. rewrite IH by tauto.
    destruct i; try reflexivity. destruct (text_dec name old); [|reflexivity].
    exfalso. apply H. left. now left.
Qed.

Lemma rename_none l old new :
  srr_ok l -> ~ In old (stored_names l) -> rename_stored_file (ser_srr l) old new = Err FileNotFound.
Proof.
  intros H Hn. unfold rename_stored_file. rewrite srr_blocks_ok by assumption. cbn [bind].
  destruct H as (_ & Hok & _). now rewrite find_none.
Qed.
Lemma rename_inv l old new out :
  srr_ok l -> rename_stored_file (ser_srr l) old new = Ok out ->
  In old (stored_names l) /\ out = ser_srr (rename_items old new l) /\
  exists a c f d e b, l = a ++ SStored c f old d e :: b /\ ~ In old (stored_names a) /\
     rename_items old new l = a ++ stored_item (new, d) :: b /\ sitem_ok (stored_item (new, d)).
Proof.
  intros H E. pose proof H as (_ & Hok & _).
  destruct (in_dec text_dec old (stored_names l)) as [Hin|Hin].
  2:{ rewrite rename_none in E by assumption. discriminate. }
  split; [assumption|]. unfold rename_stored_file in E. rewrite srr_blocks_ok in E by assumption.
  cbn [bind] in E. destruct (find_some old l [] Hok Hin) as (a & c & f & d & e & b & -> & Ha & Ef).
  cbn [app] in Ef. change (lenN []) with 0 in Ef. rewrite Ef in E. cbn [bind] in E.
  destruct (is_good_srr new); [|discriminate]. cbn [negb] in E. bindinv E.
  apply stored_header_inv in E0 as [-> Hs]. apply ok_inj in E. subst out.
  split.
  - rewrite rename_items_app by assumption. rewrite !ser_srr_app, !ser_srr_cons.
    set (i := SStored c f old d e). cbn [sblk b_pos b_hsize]. rewrite takeN_app_exact by reflexivity.
    f_equal. rewrite !ser_sitem_hdr, <- !app_assoc. f_equal. rewrite app_assoc, dropN_app_exact; [reflexivity|].
    now rewrite lenN_app, lenN_s_hdr.
  - exists a, c, f, d, e, b. now rewrite rename_items_app.
Qed.
Lemma rename_ok l old new :
  srr_ok l -> In old (stored_names l) -> stored_name_ok new ->
  rename_stored_file (ser_srr l) old new = Ok (ser_srr (rename_items old new l)).
Proof.
  intros H Hin Hnew. enough (exists out, rename_stored_file (ser_srr l) old new = Ok out) as (out & E).
  { rewrite E. f_equal. now apply rename_inv in E. }
  pose proof H as (_ & Hok & _).
  unfold rename_stored_file. rewrite srr_blocks_ok by assumption. cbn [bind].
  destruct (find_some old l [] Hok Hin) as (a & c & f & d & e & b & -> & Ha & Ef).
  cbn [app] in Ef. change (lenN []) with 0 in Ef. rewrite Ef. cbn [bind].
  pose proof Hnew as (_ & _ & Hg & _). rewrite Hg. cbn [negb].
  apply Forall_app in Hok as [_ Hok]. inversion_clear Hok as [|? ? Hi _]. destruct Hi as [_ (_ & _ & Hd)].
  rewrite stored_header_ok by assumption. cbn [bind]. eauto.
Qed.
Lemma rename_srr_ok a c f old d e b new :
  srr_ok (a ++ SStored c f old d e :: b) -> sitem_ok (stored_item (new, d)) ->
  20 <= lenN (ser_srr (a ++ stored_item (new, d) :: b)) ->
  srr_ok (a ++ stored_item (new, d) :: b).
Proof.
  intros (Hh & Hok & Hr & _) Hs Hl. split; [|split; [|split; [|assumption]]].
  - destruct Hh as (c' & f' & n & x & l' & E). destruct a as [|i a]; [discriminate|].
    injection E as -> _. cbn [app]. eauto 8.
  - apply Forall_app in Hok as [H1 H2]. inversion_clear H2. apply Forall_app. split; [assumption|now constructor].
  - clear Hh Hok Hl. revert Hr. generalize false. induction a as [|i a IH]; intros cur Hr; cbn [app] in *.
    + exact Hr.
    + destruct i; cbn [recov_removed] in *; try (now apply IH). destruct Hr. split; [assumption|now apply IH].
Qed.

(** ** Merging *)
Definition take_app (a : option text) (n : text) : option text :=
  match a with None | Some [] => Some n | _ => a end.
Lemma merge_app_sblks l : forall pos a,
  Forall sitem_ok l -> merge_app a (sblks pos l) = fold_left take_app (app_names l) a.
Proof.
  induction l as [|i l IH]; intros pos a H; [reflexivity|]. inversion_clear H.
  unfold merge_app in *. cbn [sblks fold_left].
  change (app_names (i :: l)) with ((match i with SApp _ _ n _ => [n] | _ => [] end) ++ app_names l).
  rewrite fold_left_app. rewrite IH by assumption. f_equal.
  destruct i as [| | | | |hd]; try reflexivity. cbn [sblk b_kind s_kind]. destruct hd; try reflexivity.
  cbn [head_kind]. destruct body; [reflexivity|]. destruct (ty =? 0x73); [reflexivity|].
  now destruct (ty =? 0x7B).
Qed.
Lemma take_app_some t names : t <> [] -> fold_left take_app names (Some t) = Some t.
Proof. intros H. induction names as [|n l IH]; [reflexivity|]. cbn [fold_left]. destruct t; [congruence|exact IH]. Qed.
Lemma first_nonempty_cons x t l : first_nonempty ((x :: t) :: l) = x :: t.
Proof.
  unfold first_nonempty. cbn [filter]. rewrite lenN_cons.
  destruct (N.eqb_spec (lenN t + 1) 0); [lia|]. destruct (N.eqb_spec (1 + lenN t) 0); [lia|]. reflexivity.
Qed.
Lemma take_app_first names : forall a,
  (a = None -> names <> []) ->
  fold_left take_app names a =
  Some (first_nonempty (match a with Some t => [t] | None => [] end ++ names)).
Proof.
  induction names as [|n l IH]; intros a H.
  - destruct a as [[|x t]|]; [reflexivity| |].
    + cbn [app]. now rewrite first_nonempty_cons.
    + now destruct (H eq_refl).
  - cbn [fold_left]. destruct a as [[|x t]|]; cbn [take_app].
    + rewrite IH by discriminate. reflexivity.
    + rewrite take_app_some by discriminate. cbn [app]. now rewrite first_nonempty_cons.
    + rewrite IH by discriminate. reflexivity.
Qed.

Lemma stored_copies l : forall pre,
  Forall sitem_ok l ->
  concat (map (copy_block (pre ++ ser_srr l)) (filter is_stored (sblks (lenN pre) l)))
  = ser_srr (filter is_sstored l).
Proof.
  induction l as [|i l IH]; intros pre H; [reflexivity|]. inversion_clear H.
  cbn [sblks filter]. rewrite is_stored_sblk by assumption.
  specialize (IH (pre ++ ser_sitem i) H1). rewrite <- app_assoc, lenN_app in IH.
  rewrite ser_srr_cons. destruct (is_sstored i); [|exact IH].
  cbn [map concat]. now rewrite IH, copy_block_sblk, ser_srr_cons.
Qed.
Lemma other_copies l : forall pos,
  Forall sitem_ok l ->
  concat (map b_raw (filter (fun b => negb (is_header b) && negb (is_stored b)) (sblks pos l)))
  = ser_srr (filter (fun i => negb (is_sapp i) && negb (is_sstored i)) l).
Proof.
  induction l as [|i l IH]; intros pos H; [reflexivity|]. inversion_clear H.
  cbn [sblks filter]. rewrite is_header_sblk, is_stored_sblk by assumption.
  destruct (negb (is_sapp i) && negb (is_sstored i)) eqn:E; [|now apply IH].
  cbn [map concat]. rewrite IH, ser_srr_cons by assumption. f_equal.
  destruct i; try reflexivity. discriminate.
Qed.

Lemma merge_inv ls app out :
  Forall srr_ok ls -> merge_srrs (map ser_srr ls) app = Ok out ->
  out = ser_srr (merge_items ls app) /\ Forall sitem_ok (merge_items ls app).
Proof.
  intros Hls H. unfold merge_srrs in H.
  assert (E : mapR (fun s => do bs <- read_all s; Ok (s, bs)) (map ser_srr ls) =
              Ok (map (fun l => (ser_srr l, sblks 0 l)) ls)).
  { clear H. induction Hls as [|l ls Hl _ IH]; [reflexivity|]. cbn [map mapR].
    rewrite read_all_srr by assumption. cbn [bind]. rewrite IH. reflexivity. }
  rewrite E in H. cbn [bind] in H. clear E.
  assert (Hok : Forall (Forall sitem_ok) ls).
  { eapply Forall_impl; [|exact Hls]. intros l (_ & X & _). exact X. }
  assert (Ea : forall a, fold_left (fun a sb => merge_app a (snd sb))
      (map (fun l => (ser_srr l, sblks 0 l)) ls) a =
      fold_left take_app (concat (map app_names ls)) a).
  { clear H. induction Hok as [|l ls' Hl _ IH]; intros a; [reflexivity|].
    inversion_clear Hls. cbn [map fold_left concat snd]. rewrite fold_left_app, IH by assumption.
    now rewrite merge_app_sblks. }
  rewrite Ea in H.
  destruct (fold_left take_app (concat (map app_names ls)) app) as [a|] eqn:Ef; [|discriminate].
  assert (a = first_nonempty (match app with Some t => [t] | None => [] end ++ concat (map app_names ls))) as Ha.
  { destruct app as [t|].
    - rewrite take_app_first in Ef by discriminate. congruence.
    - destruct (concat (map app_names ls)) eqn:Ec; [discriminate|].
      rewrite take_app_first in Ef by discriminate. congruence. }
  bindinv H. apply header_inv in E as [-> Hh]. bindinv H. apply ok_inj in H. subst out.
  unfold merge_items. rewrite <- Ha. split.
  - rewrite ser_srr_cons, ser_srr_app. f_equal. rewrite !map_map. cbn [fst snd]. f_equal.
    + clear - Hok. induction Hok as [|l ls Hl _ IH]; [reflexivity|]. cbn [map concat]. rewrite ser_srr_app, IH.
      f_equal. now apply (stored_copies l []).
    + clear - Hok. induction Hok as [|l ls Hl _ IH]; [reflexivity|]. cbn [map concat]. rewrite ser_srr_app, IH.
      f_equal. now apply other_copies.
  - constructor; [exact Hh|]. apply Forall_app. split; apply Forall_concat; apply Forall_map;
      (eapply Forall_impl; [|exact Hok]); intros l Hl; apply Forall_forall; intros i Hi;
      apply filter_In in Hi as [Hi _]; rewrite Forall_forall in Hl; auto.
Qed.
Lemma merge_ok ls app :
  Forall srr_ok ls -> ls <> [] ->
  (match app with Some a => valid_text a /\ lenN (utf8 a) < 65527 | None => True end) ->
  Forall (fun t => lenN (utf8 t) < 65527) (concat (map app_names ls)) ->
  merge_srrs (map ser_srr ls) app = Ok (ser_srr (merge_items ls app)).
Proof.
  intros Hls Hne Happ Hnames.
  enough (exists out, merge_srrs (map ser_srr ls) app = Ok out) as (out & E).
  { rewrite E. f_equal. now apply merge_inv in E. }
  unfold merge_srrs.
  assert (E : mapR (fun s => do bs <- read_all s; Ok (s, bs)) (map ser_srr ls) =
              Ok (map (fun l => (ser_srr l, sblks 0 l)) ls)).
  { clear Hne Hnames. induction Hls as [|l ls Hl _ IH]; [reflexivity|]. cbn [map mapR].
    rewrite read_all_srr by assumption. cbn [bind]. rewrite IH. reflexivity. }
  rewrite E. cbn [bind]. clear E.
  assert (Hok : Forall (Forall sitem_ok) ls).
  { eapply Forall_impl; [|exact Hls]. intros l (_ & X & _). exact X. }
  assert (Ea : forall a, fold_left (fun a sb => merge_app a (snd sb))
      (map (fun l => (ser_srr l, sblks 0 l)) ls) a =
      fold_left take_app (concat (map app_names ls)) a).
  { clear - Hok. induction Hok as [|l ls' Hl _ IH]; intros a; [reflexivity|].
    cbn [map fold_left concat snd]. rewrite fold_left_app, IH by assumption.
    now rewrite merge_app_sblks. }
  rewrite Ea. rewrite take_app_first.
  2:{ intros _ X. destruct Hls as [|l ls Hl]; [congruence|]. cbn [map concat] in X.
      apply app_eq_nil in X as [X _]. destruct Hl as ((c & f & n & e & l' & ->) & _). discriminate. }
  set (a := first_nonempty _).
  assert (valid_text a /\ lenN (utf8 a) < 65527) as [Ha1 Ha2].
  { assert (Hall : Forall (fun t => valid_text t /\ lenN (utf8 t) < 65527)
       (match app with Some t => [t] | None => [] end ++ concat (map app_names ls))).
    { apply Forall_app. split; [destruct app; [now constructor|constructor]|].
      apply Forall_forall. intros t Ht. split; [|rewrite Forall_forall in Hnames; now apply Hnames].
      apply in_concat in Ht as (ns & Hns & Ht). apply in_map_iff in Hns as (l & <- & Hl).
      unfold app_names in Ht. apply in_concat in Ht as (ts & Hts & Ht).
      apply in_map_iff in Hts as (i & <- & Hi).
      rewrite Forall_forall in Hok. specialize (Hok l Hl). rewrite Forall_forall in Hok. specialize (Hok i Hi).
      destruct i; try (now destruct Ht). destruct Ht as [<-|[]]. destruct Hok as [_ [_ Hn]].
      destruct (has flags 1); [now destruct Hn|]. subst. discriminate. }
    unfold a, first_nonempty. destruct (filter _ _) as [|t r] eqn:F; [split; [discriminate|reflexivity]|].
    assert (In t (t :: r)) as X by now left. rewrite <- F in X. apply filter_In in X as [X _].
    rewrite Forall_forall in Hall. now apply Hall. }
  rewrite header_ok by assumption. cbn [bind].
  rewrite (mapR_ok _ (fun sb => map (fun b => match stored_of b with Ok x => x | Err _ => None end) (snd sb))).
  - cbn [bind]. eauto.
  - apply Forall_map. eapply Forall_impl; [|exact Hok]. intros l Hl. cbn [snd].
    apply mapR_ok. generalize 0. induction Hl as [|i l Hi _ IH]; intros p; cbn [sblks]; constructor; [|apply IH].
    now rewrite stored_of_sblk.
Qed.
Lemma merge_srr_ok ls app :
  Forall srr_ok ls -> Forall sitem_ok (merge_items ls app) ->
  20 <= lenN (ser_srr (merge_items ls app)) -> srr_ok (merge_items ls app).
Proof.
  intros Hls Hok Hl. split; [|split; [assumption|split; [|assumption]]].
  - unfold merge_items, app_item. eauto 8.
  - unfold merge_items. cbn [recov_removed app_item]. apply recov_stored.
    + apply Forall_concat, Forall_map. clear. induction ls as [|l ls IH]; constructor; [|assumption].
      apply Forall_forall. intros i Hi. now apply filter_In in Hi.
    + clear Hok Hl. induction Hls as [|l ls (_ & _ & Hr & _) _ IH]; [exact I|]. cbn [map concat].
      apply recov_app; [|exact IH]. apply recov_filter; [|assumption].
      intros i. destruct i; try reflexivity. discriminate.
Qed.
