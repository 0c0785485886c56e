(** LocateFacts: proofs about the search for the files of an archive. *)
From Verif Require Import Base BaseFacts Path PathSpec PathFacts Glob GlobFacts Rar Srr SrrFacts FsFacts Verify VerifySpec VerifyFacts Locate LocateSpec.

(** ** Hints *)
Lemma split_pair h a b : split 58 h = [a; b] <-> h = a ++ 58 :: b /\ ~ In 58 a /\ ~ In 58 b.
Proof.
  split.
  - intros H. pose proof (split_joined 58 h) as J. rewrite H in J. inversion J as [|c s cs t H1 H2 H3]; subst. destruct H2 as [<-|[]].
    apply joined_one_inv in H3. destruct H3 as (-> & H3). split; [reflexivity|]. split; [apply H1; now left|apply H3; now left].
  - intros (-> & Ha & Hb). rewrite split_app_sep by exact Ha. now rewrite (split_nosep 58 b Hb).
Qed.
Lemma hint_text_cons a b x l : hint_text ((a, b) :: x :: l) = (a ++ 58 :: b) ++ 59 :: hint_text (x :: l).
Proof. cbn [hint_text]. rewrite <- app_assoc. reflexivity. Qed.
Lemma pair_nosep a b : clean a -> clean b -> ~ In 59 (a ++ 58 :: b).
Proof. intros (_ & Ha) (_ & Hb) H. apply in_app_or in H. destruct H as [H|[H|H]]; [tauto|discriminate H|tauto]. Qed.
Lemma parse_text l : l <> [] -> Forall (fun x => clean (fst x) /\ clean (snd x)) l -> parse_hints (split 59 (hint_text l)) = Some l.
Proof.
  induction l as [|[a b] l IH]; intros Hn H; [congruence|]. apply Forall_cons_iff in H. destruct H as ((Ha & Hb) & H). cbn [fst snd] in Ha, Hb.
  assert (Hs : split 58 (a ++ 58 :: b) = [a; b]) by (apply split_pair; destruct Ha, Hb; auto).
  destruct l as [|x l].
  - cbn [hint_text]. rewrite split_nosep by (now apply pair_nosep). cbn [parse_hints]. now rewrite Hs.
  - rewrite hint_text_cons, split_app_sep by (now apply pair_nosep). cbn [parse_hints]. rewrite Hs, IH; [reflexivity|discriminate|exact H].
Qed.
Lemma text_parse ws : forall t l, joined [59] ws t -> parse_hints ws = Some l -> l <> [] /\ t = hint_text l /\ Forall (fun x => clean (fst x) /\ clean (snd x)) l.
Proof.
  induction ws as [|w ws IH]; intros t l J H; [now apply joined_nonempty in J|]. cbn [parse_hints] in H.
  destruct (split 58 w) as [|a [|b [|? ?]]] eqn:E; try discriminate H. apply split_pair in E. destruct E as (-> & Ha & Hb).
  destruct (parse_hints ws) as [h|] eqn:Eh; [|discriminate H]. apply some_inj in H. subst l. split; [discriminate|].
  assert (Hc : (forall s, In s [59] -> ~ In s (a ++ 58 :: b)) -> clean a /\ clean b).
  { intros Hs. specialize (Hs 59 (or_introl eq_refl)). repeat split; auto; intros X; apply Hs, in_or_app; [now left|right; now right]. }
  inversion J as [c Hs|c s cs u Hs Hin J']; subst.
  - cbn [parse_hints] in Eh. apply some_inj in Eh. subst h. split; [reflexivity|]. constructor; [now apply Hc|constructor].
  - destruct Hin as [<-|[]]. destruct (IH u h J' eq_refl) as (Hn & -> & Hf). split.
    + destruct h as [|x h]; [congruence|]. now rewrite hint_text_cons.
    + constructor; [now apply Hc|exact Hf].
Qed.
Lemma hint_text_ne x l : hint_text (x :: l) <> [].
Proof. destruct x as [a b]. destruct l as [|y l]; [|rewrite hint_text_cons]; destruct a; discriminate. Qed.
Theorem hints_thm t l : hints_of t = Some l <-> t = hint_text l /\ Forall (fun x => clean (fst x) /\ clean (snd x)) l.
Proof.
  split.
  - intros H. destruct t as [|c t]; [apply some_inj in H; subst l; split; [reflexivity|constructor]|]. unfold hints_of in H.
    destruct (text_parse _ _ _ (split_joined 59 (c :: t)) H) as (_ & H1 & H2). auto.
  - intros (-> & H). destruct l as [|x l]; [reflexivity|]. pose proof (parse_text (x :: l) ltac:(discriminate) H) as E.
    unfold hints_of. destruct (hint_text (x :: l)) eqn:Et; [now apply hint_text_ne in Et|exact E].
Qed.
Lemma get_none l n : get_hint l n = None <-> forall h, ~ In (n, h) l.
Proof.
  induction l as [|[k v] l IH]; [split; [intros _ h []|reflexivity]|]. cbn [get_hint]. destruct (get_hint l n) as [w|] eqn:E.
  - split; [discriminate|]. intros H. assert (X : Some w = None) by (apply IH; intros h Hh; apply (H h); now right). discriminate X.
  - destruct (teqb k n) eqn:Ek.
    + apply teqb_eq in Ek. subst k. split; [discriminate|]. intros H. exfalso. apply (H v). now left.
    + apply teqb_neq in Ek. split; [|reflexivity]. intros _ h [H|H]; [congruence|]. exact (proj1 IH eq_refl h H).
Qed.
Theorem get_thm l n h : get_hint l n = Some h <-> hinted l n h.
Proof.
  split.
  - induction l as [|[k v] l IH]; intros H; [discriminate H|]. cbn [get_hint] in H. destruct (get_hint l n) as [w|] eqn:E.
    + destruct (IH H) as (a & b & -> & Hb). exists ((k, v) :: a), b. auto.
    + destruct (teqb k n) eqn:Ek; [|discriminate H]. apply teqb_eq in Ek. apply some_inj in H. subst k v. exists [], l. split; [reflexivity|].
      apply Forall_forall. intros [k w] Hi E2. cbn [fst] in E2. subst k. exact (proj1 (get_none l n) E w Hi).
  - intros (a & b & -> & Hb). induction a as [|[k v] a IH]; cbn [app get_hint]; [|now rewrite IH].
    assert (E : get_hint b n = None).
    { apply get_none. intros w Hw. rewrite Forall_forall in Hb. exact (Hb _ Hw eq_refl). }
    now rewrite E, teqb_refl.
Qed.

(** ** The place *)
Lemma joined_app c cs p : joined [c] cs p -> forall ds q, joined [c] ds q -> joined [c] (cs ++ ds) (p ++ c :: q).
Proof.
  intros H. induction H as [w Hw|w s cs t Hw Hs H IH]; intros ds q Hq; cbn [app].
  - apply joined_more; [exact Hw|now left|exact Hq].
  - rewrite <- app_assoc. cbn [app]. apply joined_more; [exact Hw|exact Hs|]. now apply IH.
Qed.
Lemma joined_ne cs p : cs <> [] -> Forall plain cs -> joined [47] cs p -> p <> [].
Proof.
  intros _ Hp J E. destruct J as [w Hw|w s cs t Hw Hs J]; [|destruct w; discriminate E]. apply Forall_inv in Hp. destruct Hp as (Hx & _). contradiction.
Qed.
Lemma last_below cs p : below cs p -> last_is 47 p = false.
Proof.
  intros (Hn & Hp & J). induction J as [w Hw|w s cs u Hw Hs J IH].
  - apply (last_is_plain [] w). now apply Forall_inv in Hp.
  - apply Forall_cons_iff in Hp. destruct Hp as (_ & Hp). pose proof (joined_nonempty _ _ _ J) as Hn2. pose proof (joined_ne _ _ Hn2 Hp J) as Hu.
    specialize (IH Hn2 Hp). replace (w ++ s :: u) with ((w ++ [s]) ++ u) by (rewrite <- app_assoc; reflexivity).
    unfold last_is in *. rewrite rev_app_distr. destruct (rev u) as [|y r] eqn:Er; [|exact IH].
    apply (f_equal (@rev _)) in Er. rewrite rev_involutive in Er. contradiction.
Qed.
Lemma place_ok folder cs p : folder_ok folder -> below cs p -> normpath (pjoin folder p) = in_folder folder p.
Proof.
  intros (ds & f & -> & Hf) Hp. rewrite (pjoin_folder _ _ _ Hp).
  assert (E : in_folder (47 :: f) p = 47 :: f ++ 47 :: p).
  { unfold in_folder. pose proof (last_below _ _ Hf) as Hl. unfold last_is in Hl. cbn [rev]. destruct (rev f) as [|x r] eqn:Er.
    - apply (f_equal (@rev _)) in Er. rewrite rev_involutive in Er. subst f. destruct Hf as (H1 & H2 & H3). now apply joined_ne in H3.
    - cbn [app]. rewrite Hl. reflexivity. }
  rewrite E. refine (proj1 (normpath_normal (ds ++ cs) (f ++ 47 :: p) _)). destruct Hf as (H1 & H2 & H3), Hp as (H4 & H5 & H6). repeat split.
  - destruct ds; [congruence|discriminate].
  - apply Forall_app. auto.
  - now apply joined_app.
Qed.

(** ** The search *)
Section Disk.
Variables (disk : text -> option entry) (walk : list (text * list text)).
Lemma file_dec p : {d | disk p = Some (EFile d)} + {no_file disk p}.
Proof. destruct (disk p) as [[d|]|] eqn:E; [left; now exists d|right|right]; intros d; rewrite E; discriminate. Qed.
Lemma no_isfile p : no_file disk p -> isfile disk p = false.
Proof. intros H. unfold isfile. destruct (disk p) as [[d|]|] eqn:E; [now apply H in E|reflexivity|reflexivity]. Qed.
Lemma is_isfile p d : disk p = Some (EFile d) -> isfile disk p = true.
Proof. intros H. unfold isfile. now rewrite H. Qed.
Definition firstly (e : text) (size : N) (l : list (text * text)) (r : result text) : Prop :=
  Forall (fun x => ~ fits disk e size x) l /\ r = Ok [] \/
  exists a root fn b, l = a ++ (root, fn) :: b /\ Forall (fun x => ~ fits disk e size x) a /\ fits disk e size (root, fn) /\ r = Ok (in_folder root fn) /\ in_folder root fn <> [].
Lemma in_folder_ne root fn : plain fn -> in_folder root fn <> [].
Proof. intros (H & _) E. unfold in_folder in E. destruct (rev root) as [|c r]; [congruence|]. destruct (c =? 47); destruct root; cbn [app] in E; congruence. Qed.
Lemma first_ok e size root names : literal e -> Forall (fun fn => plain fn /\ exists d, disk (in_folder root fn) = Some (EFile d)) names ->
  firstly e size (map (pair root) names) (first_size disk size root (filter (fun fn => fnmatch fn (42 :: e)) names)).
Proof.
  intros L H. induction H as [|fn names (P & d & D) H IH]; [left; split; [constructor|reflexivity]|]. cbn [filter map].
  assert (Skip : ~ fits disk e size (root, fn) -> firstly e size (map (pair root) names) (first_size disk size root (filter (fun fn => fnmatch fn (42 :: e)) names)) ->
    firstly e size ((root, fn) :: map (pair root) names) (first_size disk size root (filter (fun fn => fnmatch fn (42 :: e)) names))).
  { intros Hs [(H1 & H2)|(a & r & f & b & H1 & H2 & H3)]; [left; split; [now constructor|exact H2]|].
    right. exists ((root, fn) :: a), r, f, b. rewrite H1. split; [reflexivity|]. split; [now constructor|exact H3]. }
  destruct (fnmatch fn (42 :: e)) eqn:M.
  - cbn [first_size]. assert (J : pjoin root fn = in_folder root fn) by (apply (pjoin_folder root [fn]); now apply plain_below).
    rewrite J. unfold getsize. rewrite D. cbn [bind]. destruct (N.eqb_spec (lenN d) size) as [E|E].
    + right. exists [], root, fn, (map (pair root) names). split; [reflexivity|]. split; [constructor|]. split; [|split; [reflexivity|now apply in_folder_ne]].
      split; [now apply star_ok|]. exists d. auto.
    + apply Skip; [|exact IH]. intros (_ & d' & D' & E'). cbn [fst snd] in D'. congruence.
  - apply Skip; [|exact IH]. intros (X & _). apply (star_ok e L) in X. cbn [snd] in X. congruence.
Qed.
Lemma auto_ok e size : literal e -> walk_ok disk walk -> firstly e size (listed walk) (auto_loop disk size (42 :: e) walk).
Proof.
  intros L W. unfold walk_ok in W. induction W as [|[root names] w H W IH]; [left; split; [constructor|reflexivity]|].
  cbn [auto_loop]. cbn [fst snd] in H. pose proof (first_ok e size root names L H) as F. unfold listed. cbn [flat_map fst snd]. fold (listed w).
  destruct F as [(H1 & ->)|(a & r & f & b & E & H2 & H3 & -> & H4)]; cbn [bind].
  - destruct IH as [(I1 & I2)|(a & r & f & b & I1 & I2 & I3)]; [left; split; [apply Forall_app; auto|exact I2]|].
    right. exists (map (pair root) names ++ a), r, f, b. rewrite I1, <- app_assoc. split; [reflexivity|]. split; [apply Forall_app; auto|exact I3].
  - right. exists a, r, f, (b ++ listed w). rewrite E, <- app_assoc. split; [reflexivity|]. split; [exact H2|]. split; [exact H3|]. split; [|exact H4].
    destruct (in_folder r f); [congruence|reflexivity].
Qed.
Lemma unknown_dec size : {unknown size} + {~ unknown size}.
Proof. unfold unknown. destruct (N.eq_dec size 0xFFFFFFFF), (N.eq_dec size 0xFFFFFFFFFFFFFFFF); intuition. Defined.
Lemma size_check (A : Type) (x size : N) (y n : A) : 
  (if negb (x =? size) && negb (size =? 4294967295) && negb (size =? 18446744073709551615) then y else n) = if N.eq_dec x size then n else if unknown_dec size then n else y.
Proof.
  destruct (N.eq_dec x size) as [->|Hx]; [now rewrite N.eqb_refl|]. apply N.eqb_neq in Hx. rewrite Hx.
  destruct (unknown_dec size) as [Hu|Hu].
  - destruct Hu as [-> | ->]; reflexivity.
  - assert (size <> 4294967295 /\ size <> 18446744073709551615) as (H1 & H2) by (unfold unknown in Hu; tauto).
    apply N.eqb_neq in H1, H2. now rewrite H1, H2.
Qed.
Lemma locate_ok hints auto folder n own p size e : folder_ok folder -> target hints n p -> (auto = true -> rar_path n own /\ ext_of own e /\ literal e /\ walk_ok disk walk) ->
  outcome disk walk auto (in_folder folder p) e size (locate_path disk walk hints auto folder n size).
Proof.
  intros Hf Ht Ha. unfold locate_path.
  assert (Hs : match get_hint hints n with Some s => Ok s | None => rar_os_file_name n end = Ok p /\ exists cs, below cs p).
  { destruct Ht as [(H & B)|(H & H2)].
    - apply get_thm in H. rewrite H. auto.
    - apply get_none in H. rewrite H. pose proof H2 as (cs & _ & B). split; [now apply rar_os_file_name_spec|now exists cs]. }
  destruct Hs as (-> & cs & Hb). cbn [bind]. rewrite (place_ok folder cs p Hf Hb). cbv zeta.
  destruct (file_dec (in_folder folder p)) as [(d & D)|D].
  - rewrite (is_isfile _ _ D). cbn [bind]. unfold getsize. rewrite D. cbn [bind]. rewrite size_check.
    destruct (N.eq_dec (lenN d) size) as [E|E]; [eapply o_there; [exact D|now left]|].
    destruct (unknown_dec size) as [U|U]; [eapply o_there; [exact D|now right]|]. eapply o_size; [exact D|exact E|exact U].
  - rewrite (no_isfile _ D). destruct auto; cbn [bind].
    + destruct (Ha eq_refl) as (Ho & He & L & W). apply rar_os_file_name_spec in Ho. rewrite Ho. cbn [bind]. unfold auto_locate_renamed.
      apply ext_of_is in He. rewrite <- He. destruct (auto_ok e size L W) as [(H1 & ->)|(a & r & f & b & H1 & H2 & H3 & -> & H4)]; cbn [bind].
      * rewrite (no_isfile _ D). cbn [bind]. apply o_gone; auto.
      * pose proof H3 as (_ & d & D' & E'). cbn [fst snd] in D'. destruct (in_folder r f) as [|c q] eqn:Eq; [congruence|]. rewrite <- Eq in *. cbn [bind].
        rewrite (is_isfile _ _ D'). cbn [bind]. unfold getsize. rewrite D'. cbn [bind]. rewrite size_check. rewrite E'.
        destruct (N.eq_dec size size) as [_|X]; [|congruence]. eapply o_moved; eauto.
    + rewrite (no_isfile _ D). cbn [bind]. apply o_gone; [exact D|discriminate].
Qed.
Lemma first_unique {A} (P : A -> Prop) a x b a' x' b' : a ++ x :: b = a' ++ x' :: b' -> Forall (fun y => ~ P y) a -> Forall (fun y => ~ P y) a' -> P x -> P x' -> x = x'.
Proof.
  revert a'. induction a as [|y a IH]; intros [|y' a'] E F F' Px Px'; cbn [app] in E; injection E as E1 E2.
  - exact E1.
  - inversion F'; subst; contradiction.
  - inversion F; subst; contradiction.
  - inversion F; inversion F'; subst. now apply (IH a').
Qed.
Lemma outcome_det auto place e size r r' : outcome disk walk auto place e size r -> outcome disk walk auto place e size r' -> r = r'.
Proof.
  intros H H'. destruct H as [d D S|d D S U|a root fn b D A E F X|D G]; destruct H' as [d' D' S'|d' D' S' U'|a' root' fn' b' D' A' E' F' X'|D' G'];
    try reflexivity; try (exfalso; eapply D; eassumption); try (exfalso; eapply D'; eassumption).
  - exfalso. assert (d = d') by congruence. subst d'. destruct S; contradiction.
  - exfalso. assert (d = d') by congruence. subst d'. destruct S'; contradiction.
  - rewrite E in E'. pose proof (first_unique _ _ _ _ _ _ _ E' F F' X X') as Q. injection Q as -> ->. reflexivity.
  - exfalso. specialize (G' A). rewrite Forall_forall in G'. apply (G' (root, fn)); [rewrite E; apply in_or_app; right; now left|exact X].
  - exfalso. specialize (G A'). rewrite Forall_forall in G. apply (G (root', fn')); [rewrite E'; apply in_or_app; right; now left|exact X'].
Qed.
Theorem locate_thm hints auto folder n own p size e r : folder_ok folder -> target hints n p ->
  (auto = true -> rar_path n own /\ ext_of own e /\ literal e /\ walk_ok disk walk) ->
  locate_path disk walk hints auto folder n size = r <-> outcome disk walk auto (in_folder folder p) e size r.
Proof.
  intros Hf Ht Ha. pose proof (locate_ok hints auto folder n own p size e Hf Ht Ha) as H. split; [now intros <-|]. intros H'. eapply outcome_det; eassumption.
Qed.
End Disk.
