(** SubsFacts: lemmas for Subs. *)
From Verif Require Import SelectFacts WantedFacts VolName VolSpec VolFacts Base BaseFacts Path PathFacts Info DirsSpec DirsFacts InfoFacts NzbFix NzbFixSpec NzbFixFacts Subs SubsSpec.
From Coq Require Import Permutation.

Lemma assoc_in {A} k (l : list (text * A)) v : assoc k l = Some v -> In (k, v) l.
Proof. induction l as [|[n w] l IH]; cbn [assoc]; [discriminate|]. destruct (teqb n k) eqn:E.
  - intros X; apply some_inj in X; subst. apply teqb_eq in E. subst. now left.
  - intros X. right. auto. Qed.
Lemma in_assoc {A} k (l : list (text * A)) v : In (k, v) l -> (forall w, In (k, w) l -> w = v) -> assoc k l = Some v.
Proof. induction l as [|[n w] l IH]; cbn [assoc]; [intros []|]. intros I U. destruct (teqb n k) eqn:E.
  - apply teqb_eq in E. subst. f_equal. apply U. now left.
  - apply IH; [|intros; apply U; now right]. destruct I as [I|I]; [|auto]. inversion I; subst. rewrite teqb_refl in E. discriminate. Qed.
Lemma nodup_assoc {A} k (l : list (text * A)) v : NoDup (map fst l) -> In (k, v) l -> assoc k l = Some v.
Proof. intros N I. apply in_assoc; [auto|]. intros w J. revert N I J. induction l as [|[n x] l IH]; [intros _ []|]. cbn [map fst]. intros N I J.
  inversion N as [|? ? N1 N2]; subst. destruct I as [I|I], J as [J|J].
  - congruence.
  - inversion I; subst. exfalso. apply N1. apply in_map_iff. exists (k, w); auto.
  - inversion J; subst. exfalso. apply N1. apply in_map_iff. exists (k, v); auto.
  - auto. Qed.
Lemma assoc_map {A B} (f : A -> B) k (l : list (text * A)) : assoc k (map (fun x => (fst x, f (snd x))) l) = option_map f (assoc k l).
Proof. induction l as [|[n x] l IH]; cbn [assoc map fst snd]; [reflexivity|]. destruct (teqb n k); auto. Qed.

Definition good (kids : list (text * kid)) (firsts : list text) : list (text * bytes * list (text * srrt)) :=
  concat (map (fun fr => match assoc fr kids with Some (Some (d, st)) => [(fr, d, st)] | _ => [] end) firsts).
Lemma good_in kids firsts fr d st : In (fr, d, st) (good kids firsts) <-> In fr firsts /\ assoc fr kids = Some (Some (d, st)).
Proof.
  unfold good. rewrite in_concat. split.
  - intros (x & I & J). apply in_map_iff in I. destruct I as (g & <- & I). destruct (assoc g kids) as [[[e s]|]|] eqn:E; try easy.
    destruct J as [J|[]]. inversion J; subst. auto.
  - intros (I & E). exists [(fr, d, st)]. split; [|now left]. apply in_map_iff. exists fr. now rewrite E.
Qed.
Lemma loop_good name_of kids firsts a : fold_left (step_rar name_of kids) firsts a =
  mkAcc (c_diz a ++ concat (map (fun x => snd (fst x)) (good kids firsts))) (c_res a ++ map (fun x => name_of (fst (fst x))) (good kids firsts))
    (rev (map (fun x => (name_of (fst (fst x)), Srr (fst (fst x)) (snd x))) (good kids firsts)) ++ c_files a).
Proof.
  revert a. induction firsts as [|fr firsts IH]; intros a.
  - cbn. rewrite !app_nil_r. now destruct a.
  - cbn [fold_left]. rewrite IH. unfold good. cbn [map concat]. fold (good kids firsts). unfold step_rar. destruct (assoc fr kids) as [[[d st]|]|]; [|reflexivity|reflexivity].
    cbn [c_diz c_res c_files app map concat fst snd rev]. now rewrite <- !app_assoc.
Qed.
Lemma loop_diz name_of kids firsts : c_diz (create_loop name_of kids firsts) = concat (map (fun x => snd (fst x)) (good kids firsts)).
Proof. unfold create_loop. now rewrite loop_good. Qed.
Lemma found_in name_of kids firsts p t : (forall f g, In f firsts -> In g firsts -> name_of f = name_of g -> f = g) ->
  In (p, t) (found (create_loop name_of kids firsts)) <-> exists fr d st, In fr firsts /\ assoc fr kids = Some (Some (d, st)) /\ p = name_of fr /\ t = Srr fr st.
Proof.
  intros J. unfold create_loop. rewrite loop_good. unfold found. cbn [c_res c_files app]. rewrite app_nil_r.
  set (fs := rev _).
  assert (F : forall q u, In (q, u) fs <-> exists fr d st, In fr firsts /\ assoc fr kids = Some (Some (d, st)) /\ q = name_of fr /\ u = Srr fr st).
  { intros q u. unfold fs. rewrite <- in_rev, in_map_iff. split.
    - intros ([[fr d] st] & E & I). apply good_in in I. cbn in E. inversion E; subst. exists fr, d, st. tauto.
    - intros (fr & d & st & I & A & -> & ->). exists (fr, d, st). split; [reflexivity|]. apply good_in. auto. }
  assert (U : forall q u w, In (q, u) fs -> In (q, w) fs -> u = w).
  { intros q u w I1 I2. apply F in I1. apply F in I2. destruct I1 as (f & d & st & A1 & B1 & -> & ->), I2 as (g & e & sg & A2 & B2 & E & ->).
    pose proof (J _ _ A1 A2 E) as X. subst g. congruence. }
  rewrite in_concat. split.
  - intros (x & I & K). apply in_map_iff in I. destruct I as (q & <- & I). destruct (assoc q fs) as [u|] eqn:E; [|destruct K].
    destruct K as [K|[]]. inversion K; subst. apply F. now apply assoc_in.
  - intros H. pose proof (proj2 (F _ _) H) as I. destruct H as (fr & d & st & A & B & -> & ->). exists [(name_of fr, Srr fr st)]. split; [|now left].
    apply in_map_iff. exists (name_of fr). split.
    + now rewrite (in_assoc _ _ _ I) by eauto.
    + apply in_map_iff. exists (fr, d, st). split; [reflexivity|]. apply good_in. auto.
Qed.

Section E.
Variable enc : text -> bytes.
Lemma section_spec name data : lang_section enc name data (idx_section enc name data).
Proof.
  exists (readlines data). split; [apply lines_read|]. unfold idx_section. do 2 f_equal. apply filter_ext. intros l.
  apply Bool.eq_iff_eq_true. split.
  - intros H. apply sw_inv in H. destruct H as (r & ->). reflexivity.
  - intros H. apply beqb_eq in H. rewrite <- (firstn_skipn 4 l), H. apply sw_app.
Qed.
End E.
Lemma remove1_incl x l : incl (remove1 x l) l.
Proof. induction l as [|y l IH]; cbn [remove1]; intros z I; [auto|]. destruct (teqb y x); [now right|]. destruct I as [->|I]; [now left|right; auto]. Qed.
Lemma remove1_nodup x l : NoDup l -> NoDup (remove1 x l).
Proof. induction l as [|y l IH]; cbn [remove1]; intros N; [auto|]. inversion N; subst. destruct (teqb y x); [auto|]. constructor; [|auto]. intros I. apply remove1_incl in I. auto. Qed.
Lemma drop_nodup fuel : forall i l, NoDup l -> NoDup (drop_001 fuel i l).
Proof. induction fuel as [|fuel IH]; intros i l N; cbn [drop_001]; [auto|]. destruct (nth_error l i); [|auto]. apply IH. destruct (ends_with _ _); [now apply remove1_nodup|auto]. Qed.
Lemma firsts_nodup l : NoDup l -> NoDup (first_rars l).
Proof.
  intros N. unfold first_rars. pose proof (drop_nodup (length (filter is_first l)) 0 _ (NoDup_filter is_first N)) as D.
  destruct (drop_001 _ _ _); [|auto]. pose proof (NoDup_filter (fun f => mem_text (cut_end 3 f ++ str "r00") l) (NoDup_filter (fun f => ends_with (str ".rar") (VolName.lower f)) N)) as H.
  destruct (filter _ (filter _ l)); [|auto]. destruct (1 <? _); [constructor|]. now apply NoDup_filter.
Qed.

Lemma idx_spec n : is_idx n = true <-> named ".idx" n.
Proof.
  rewrite <- (ends4_spec ".idx" n eq_refl). unfold is_idx, Dirs.ends4, Dirs.last4. rewrite !teqb_eq.
  assert (E : lower (last_part 4 n) = dropN (lenN (lower n) - 4) (lower n)); [|now rewrite E].
  unfold last_part, lower. rewrite takeN_firstn, dropN_skipn, firstn_rev, rev_involutive, lenN_length, map_length, skipn_map.
  do 2 f_equal. lia.
Qed.
Lemma split_dir (a : text) : exists d stem, a = d ++ stem /\ (d = [] \/ exists d', d = d' ++ [47]) /\ ~ In 47 stem.
Proof.
  induction a as [|c a IH] using rev_ind; [exists [], []; split; [reflexivity|]; split; [now left|intros []]|]. destruct (N.eq_dec c 47) as [->|Nc].
  - exists (a ++ [47]), []. split; [now rewrite app_nil_r|]. split; [right; now exists a|intros []].
  - destruct IH as (d & stem & -> & D & S). exists d, (stem ++ [c]). split; [now rewrite app_assoc|]. split; [auto|]. intros I. apply in_app_iff in I. destruct I as [I|[I|[]]]; auto.
Qed.
Lemma srr_for_end (a e : text) : length e = 4%nat -> ~ In 47 e -> exists s, srr_for (a ++ e) s.
Proof. intros L E. destruct (split_dir a) as (d & stem & -> & D & S). exists (stem ++ str ".srr"), d, stem, e. split; [now rewrite app_assoc|tauto]. Qed.
Lemma srr_for_base fr s : srr_for fr s -> srr_base fr = s.
Proof.
  intros (d & stem & e & -> & D & S & E & L & ->). unfold srr_base.
  assert (B : basename (d ++ stem ++ e) = stem ++ e).
  { assert (N : ~ In 47 (stem ++ e)) by (rewrite in_app_iff; tauto). destruct D as [->|(d' & ->)]; [now apply basename_nosep|]. rewrite <- app_assoc. cbn [app]. now apply basename_sep. }
  rewrite B. f_equal. unfold cut_end. rewrite rev_app_distr, dropN_app_exact; [apply rev_involutive|]. rewrite lenN_length, rev_length. lia.
Qed.
Lemma rar_end e : up_to_case e (str ".rar") -> length e = 4%nat /\ ~ In 47 e.
Proof.
  intros U. unfold up_to_case in U. change (str ".rar") with [46; 114; 97; 114] in U. 
  repeat match goal with H : Forall2 _ _ (_ :: _) |- _ => inversion H; subst; clear H | H : Forall2 _ _ [] |- _ => inversion H; subst; clear H end.
  split; [reflexivity|]. cbn. lia.
Qed.
Lemma first_end f : is_first f = true -> exists s, srr_for f s.
Proof.
  unfold is_first. intros H. apply orb_true_iff in H. destruct H as [H|H]; [apply orb_true_iff in H; destruct H as [H|H]|].
  - apply andb_true_iff in H. destruct H as (H & _). unfold RAR_REV in H. apply iends_spec in H; [|repeat constructor]. destruct H as (a & e & -> & U). apply rar_end in U. now apply srr_for_end.
  - apply VolFacts.ends_with_spec in H. destruct H as (a & ->). apply srr_for_end; [reflexivity|cbn; intuition discriminate].
  - apply VolFacts.ends_with_spec in H. destruct H as (a & ->). apply srr_for_end; [reflexivity|cbn; intuition discriminate].
Qed.
Lemma drop_incl fuel : forall i l, incl (drop_001 fuel i l) l.
Proof. induction fuel as [|fuel IH]; intros i l; cbn [drop_001]; [apply incl_refl|]. destruct (nth_error l i); [|apply incl_refl]. eapply incl_tran; [apply IH|]. destruct (ends_with _ _); [apply remove1_incl|apply incl_refl]. Qed.
Lemma firsts_named l f : In f (first_rars l) -> exists s, srr_for f s.
Proof.
  assert (Q : In f (filter (fun f => ends_with (str ".rar") (VolName.lower f)) l) -> exists s, srr_for f s).
  { intros I. apply filter_In in I. destruct I as (_ & I). apply VolFacts.ends_with_spec in I. destruct I as (a & E). unfold VolName.lower in E.
    apply map_eq_app in E. destruct E as (a' & e & -> & _ & E). apply srr_for_end.
    - apply (f_equal (@length N)) in E. rewrite map_length in E. exact E.
    - intros I. apply (in_map VolName.lower1) in I. rewrite E in I. vm_compute in I. intuition discriminate. }
  unfold first_rars. pose proof (drop_incl (length (filter is_first l)) 0 (filter is_first l)) as D.
  destruct (drop_001 _ _ _) as [|x xs].
  - intros I. apply Q. destruct (filter _ (filter _ l)) as [|y ys] eqn:E.
    + destruct (1 <? _); [destruct I|exact I].
    + rewrite <- E in I. apply filter_In in I. tauto.
  - intros I. apply D in I. apply filter_In in I. now apply first_end.
Qed.
Lemma different_inj firsts : (forall f, In f firsts -> exists s, srr_for f s) -> different_names firsts ->
  forall f g, In f firsts -> In g firsts -> srr_base f = srr_base g -> f = g.
Proof. intros A D f g F G E. destruct (A f F) as (s & S), (A g G) as (t & T). pose proof (srr_for_base _ _ S). pose proof (srr_for_base _ _ T). apply (D f g s); auto. congruence. Qed.
Section Node.
Variable P : node -> Prop.
Hypothesis Hn : forall d, P (Node d None).
Hypothesis Hs : forall d items, (forall n k, In (n, k) items -> P k) -> P (Node d (Some items)).
Lemma node_induction : forall n, P n.
Proof.
  fix IH 1. intros [d [items|]]; [|apply Hn]. apply Hs. induction items as [|[m k] items IHi]; intros n k'; [intros []|].
  intros [E|E]; [injection E as _ <-; apply IH|exact (IHi n k' E)].
Qed.
End Node.

Section E2.
Variable enc : text -> bytes.
Notation kids items := (map (fun x => (fst x, extract enc (snd x))) items).
Definition right (n : node) : Prop :=
  match extract enc n with
  | None => ~ extractable n
  | Some (d, st) => extractable n /\ all_languages enc (idx_at n) d /\ forall f, same_archives n (Srr f st)
  end.
Lemma not_at n path r : ~ extractable n -> ~ at_archive n path r.
Proof. intros E A. apply E. inversion A; subst; eexists _, _; reflexivity. Qed.

Lemma loop_languages items firsts : NoDup (map fst items) -> NoDup firsts -> (forall n k, In (n, k) items -> right k) ->
  all_languages enc (idx_from items firsts) (concat (map (fun x => snd (fst x)) (good (kids items) firsts))).
Proof.
  intros N D R. induction firsts as [|fr firsts IH].
  - exists [], []. split; [constructor|]. split; [|split; [constructor|reflexivity]]. intros path name data. split; [intros []|]. intros (? & ? & ? & _ & [] & _).
  - inversion D as [|? ? D1 D2]; subst. destruct (IH D2) as (l & ss & L1 & L2 & L3 & L4). clear IH.
    unfold good. cbn [map concat]. fold (good (kids items) firsts). rewrite assoc_map. destruct (assoc fr items) as [k|] eqn:A; cbn [option_map].
    + apply assoc_in in A. pose proof (R _ _ A) as Rk. unfold right in Rk. destruct (extract enc k) as [[d st]|].
      * destruct Rk as (_ & (l1 & s1 & M1 & M2 & M3 & M4) & _).
        exists (map (fun x => (fr :: fst (fst x), snd (fst x), snd x)) l1 ++ l), (s1 ++ ss). split; [|split; [|split]].
        -- apply NoDup_both; [|exact L1|].
           ++ apply FinFun.Injective_map_NoDup; [|exact M1]. intros [[a b] c] [[a' b'] c'] X. cbn in X. now inversion X.
           ++ intros x I J. apply in_map_iff in I. destruct I as ([[a b] c] & <- & I). cbn in J. apply L2 in J. destruct J as (g & k' & p & E & F & _). inversion E; subst. auto.
        -- intros path name data. rewrite in_app_iff. split.
           ++ intros [I|I].
              ** apply in_map_iff in I. destruct I as ([[a b] c] & E & I). cbn in E. inversion E; subst. apply M2 in I. exists fr, k, a. split; [reflexivity|]. split; [now left|]. auto.
              ** apply L2 in I. destruct I as (g & k' & p & E & F & G). exists g, k', p. split; [exact E|]. split; [now right|exact G].
           ++ intros (g & k' & p & -> & [<-|F] & G & I).
              ** left. pose proof (nodup_assoc _ _ _ N A) as A1. pose proof (nodup_assoc _ _ _ N G) as A2. rewrite A1 in A2. apply some_inj in A2. subst k'. apply in_map_iff. exists (p, name, data). split; [reflexivity|]. now apply M2.
              ** right. apply L2. exists g, k', p. auto.
        -- apply Forall2_app; [|exact L3]. clear - M3. induction M3; cbn [map]; constructor; auto.
        -- cbn [app map concat fst snd]. rewrite concat_app, L4, M4. reflexivity.
      * exists l, ss. split; [exact L1|]. split; [|split; [exact L3|exact L4]]. intros path name data. rewrite L2. split.
        -- intros (g & k' & p & E & F & G). exists g, k', p. split; [exact E|]. split; [now right|exact G].
        -- intros (g & k' & p & E & [<-|F] & G & r & k2 & H & H'); [|exists g, k', p; split; [exact E|]; split; [exact F|]; split; [exact G|]].
           ++ pose proof (nodup_assoc _ _ _ N A) as A1. pose proof (nodup_assoc _ _ _ N G) as A2. rewrite A1 in A2. apply some_inj in A2. subst k'. exfalso. exact (not_at _ _ _ Rk H).
           ++ exists r, k2. auto.
    + exists l, ss. split; [exact L1|]. split; [|split; [exact L3|exact L4]]. intros path name data. rewrite L2. split.
      * intros (g & k' & p & E & F & G). exists g, k', p. split; [exact E|]. split; [now right|exact G].
      * intros (g & k' & p & E & [<-|F] & G & H); [|exists g, k', p; auto]. rewrite (nodup_assoc _ _ _ N G) in A. discriminate.
Qed.

Lemma own_languages items : NoDup (map fst items) ->
  all_languages enc (fun path name data => path = [] /\ (exists k, In (name, Node data k) items) /\ named ".idx" name) (languages enc items).
Proof.
  intros N. set (dat := fun n => match assoc n items with Some (Node d _) => d | None => [] end).
  exists (map (fun n => ([], n, dat n)) (filter is_idx (sort_text (map fst items)))), (map (fun n => idx_section enc n (dat n)) (filter is_idx (sort_text (map fst items)))).
  pose proof (InfoFacts.sort_perm (map fst items)) as P. split; [|split; [|split]].
  - apply FinFun.Injective_map_NoDup; [intros a b E; now inversion E|]. apply NoDup_filter. eapply Permutation_NoDup; eauto.
  - intros path name data. rewrite in_map_iff. split.
    + intros (n & E & I). inversion E; subst. apply filter_In in I. destruct I as (I & J). split; [reflexivity|]. split; [|now apply idx_spec].
      apply (Permutation_in _ (Permutation_sym P)) in I. apply in_map_iff in I. destruct I as ([m [d k]] & E1 & I). cbn in E1. subst m. exists k. unfold dat. now rewrite (nodup_assoc _ _ _ N I).
    + intros (-> & (k & I) & J). exists name. split; [unfold dat; now rewrite (nodup_assoc _ _ _ N I)|]. apply filter_In. split; [|now apply idx_spec].
      apply (Permutation_in _ P). apply in_map_iff. exists (name, Node data k). auto.
  - induction (filter is_idx (sort_text (map fst items))); cbn [map]; constructor; [apply section_spec|auto].
  - unfold languages. assert (G : forall l, incl l (map fst items) -> concat (map (fun n => if is_idx n then match assoc n items with Some (Node d _) => idx_section enc n d | None => [] end else []) l) = concat (map (fun n => idx_section enc n (dat n)) (filter is_idx l))).
    { induction l as [|n l IH]; intros C; [reflexivity|]. cbn [map concat filter]. rewrite IH by (intros z Z; apply C; now right). destruct (is_idx n); [|reflexivity]. cbn [map concat]. f_equal.
      assert (I : In n (map fst items)) by (apply C; now left). apply in_map_iff in I. destruct I as ([m [d k]] & E & I). cbn in E. subst m. unfold dat. now rewrite (nodup_assoc _ _ _ N I). }
    apply G. intros z Z. apply (Permutation_in _ (Permutation_sym P)). exact Z.
Qed.
Lemma languages_both (P Q R : list text -> text -> bytes -> Prop) a b : all_languages enc P a -> all_languages enc Q b ->
  (forall path n d, P path n d -> ~ Q path n d) -> (forall path n d, R path n d <-> P path n d \/ Q path n d) -> all_languages enc R (a ++ b).
Proof.
  intros (l & ss & A1 & A2 & A3 & ->) (m & tt & B1 & B2 & B3 & ->) D E. exists (l ++ m), (ss ++ tt). split; [|split; [|split]].
  - apply NoDup_both; [auto|auto|]. intros [[x y] z] I J. apply A2 in I. apply B2 in J. exact (D _ _ _ I J).
  - intros. rewrite in_app_iff, A2, B2. symmetry. apply E.
  - now apply Forall2_app.
  - symmetry. apply concat_app.
Qed.
Lemma extract_right n : tidy n -> right n.
Proof.
  induction n as [d|d items IH] using node_induction; intros T.
  - unfold right. cbn [extract]. intros (? & ? & E). discriminate E.
  - assert (T' := T). inversion T' as [? ? Q]; subst. destruct (Q _ eq_refl) as (N & J' & K). clear T' Q.
    pose proof (different_inj _ (firsts_named _) J') as J.
    assert (R : forall n k, In (n, k) items -> right k) by (intros n k I; eapply IH; eauto).
    unfold right. cbn [extract]. split; [eexists _, _; reflexivity|]. split.
    + rewrite loop_diz. eapply languages_both; [apply own_languages, N|apply (loop_languages _ _ N (firsts_nodup _ N) R)| |].
      * intros path m e (-> & _) (? & ? & ? & E & _). discriminate E.
      * intros path m e. split.
        -- intros (r & k & A & I & D). inversion A; subst.
           ++ left. split; [reflexivity|]. split; [exists k; auto|auto].
           ++ right. exists f, k0, path0. split; [reflexivity|]. split; [auto|]. split; [auto|]. exists r, k. auto.
        -- intros [(-> & (k & I) & D)|(fr & k & p & -> & F & G & r & k' & A & I & D)].
           ++ exists items, k. split; [constructor|auto].
           ++ exists r, k'. split; [econstructor; eauto|auto].
    + intros f path. split.
      * intros I. inversion I as [|? ? p g st' path' H2 _ H3]; subst; [exists items; constructor|]. apply (found_in srr_base _ _ _ _ J) in H2. destruct H2 as (fr & d0 & st & A & B & -> & E). inversion E; subst.
        rewrite assoc_map in B. destruct (assoc fr items) as [k|] eqn:C; [|discriminate]. cbn in B. apply some_inj in B. apply assoc_in in C. pose proof (R _ _ C) as Rk. unfold right in Rk. rewrite B in Rk.
        destruct Rk as (_ & _ & S). apply S in H3. destruct H3 as (r & H3). exists r. econstructor; eauto.
      * intros (r & A). inversion A as [|? ? f0 k path' r' H3 H4 H5]; subst; [constructor|]. pose proof (R _ _ H4) as Rk. unfold right in Rk. destruct (extract enc k) as [[d0 st]|] eqn:B; [|exfalso; exact (not_at _ _ _ Rk H5)].
        destruct Rk as (_ & _ & S). apply (it_in _ _ (srr_base f0) _ st); [|destruct (firsts_named _ _ H3) as (s & Hs); now rewrite (srr_for_base _ _ Hs)|apply S; exists r; auto]. apply (found_in srr_base _ _ _ _ J). exists f0, d0, st. split; [auto|]. split; [|auto].
        rewrite assoc_map, (nodup_assoc _ _ _ N H4). cbn. now rewrite B.
Qed.

Lemma path_at dir f firsts fr : dir_path dir -> ~ In 47 f -> In fr firsts -> (exists s, srr_for fr s) ->
  forall p, srr_at (dir ++ 47 :: f) firsts fr p <-> p = srr_path (dir ++ 47 :: f) firsts fr.
Proof.
  intros D F I (s & S) p. unfold srr_path. rewrite (dir_of _ _ D F), (srr_for_base _ _ S).
  assert (J : pjoin dir s = dir ++ 47 :: s).
  { destruct S as (d & stem & e & _ & _ & S & _ & _ & ->). apply pjoin_ok; [now apply dir_path_ok|destruct stem; discriminate|]. rewrite in_app_iff. cbn. intuition discriminate. }
  rewrite J. destruct firsts as [|x [|y l]]; [destruct I|reflexivity|].
  replace (1 <? lenN (x :: y :: l)) with true by (rewrite lenN_length; cbn [length]; lia). cbn [srr_at]. split.
  - intros (dir' & f' & s' & E & F' & S' & ->). rewrite (eq_sym (srr_for_base _ _ S')), (srr_for_base _ _ S). f_equal.
    assert (B : f' = f) by (rewrite <- (basename_sep dir' f' F'), <- (basename_sep dir f F), E; reflexivity). subst f'. apply app_inv_tail in E. auto.
  - intros ->. exists dir, f, s. auto.
Qed.
Theorem archives_spec dir f world firsts diz srrs lang after : dir_path dir -> ~ In 47 f -> NoDup (map fst world) -> (forall n k, In (n, k) world -> tidy k) ->
  (forall fr, In fr firsts -> exists s, srr_for fr s) -> different_names firsts ->
  create_srr_for_subs enc (dir ++ 47 :: f) world firsts diz = (srrs, lang, after) ->
  (forall p fr st, In (p, Srr fr st) srrs -> srr_at (dir ++ 47 :: f) firsts fr p /\ In fr firsts /\ exists k, In (fr, k) world /\ extractable k /\ same_archives k (Srr fr st)) /\
  (forall fr k, In fr firsts -> In (fr, k) world -> extractable k -> exists p st, In (p, Srr fr st) srrs).
Proof.
  intros D Hf N T H1 H2 E. unfold create_srr_for_subs in E. injection E as E _ _. subst srrs.
  assert (J : forall a b, In a firsts -> In b firsts -> srr_path (dir ++ 47 :: f) firsts a = srr_path (dir ++ 47 :: f) firsts b -> a = b).
  { intros a b A B. unfold srr_path. rewrite (dir_of _ _ D Hf). destruct (H1 a A) as (s & S), (H1 b B) as (t & U). rewrite (srr_for_base _ _ S), (srr_for_base _ _ U).
    destruct firsts as [|x [|y l]]; [destruct A|destruct A as [<-|[]], B as [<-|[]]; auto|]. replace (1 <? lenN (x :: y :: l)) with true by (rewrite lenN_length; cbn [length]; lia).
    assert (Z : forall fr s, srr_for fr s -> pjoin dir s = dir ++ 47 :: s).
    { intros fr s0 (d & stem & e & _ & _ & S' & _ & _ & ->). apply pjoin_ok; [now apply dir_path_ok|destruct stem; discriminate|]. rewrite in_app_iff. cbn. intuition discriminate. }
    rewrite (Z _ _ S), (Z _ _ U). intros E. apply app_inv_head in E. injection E as E. subst t. eapply H2; eauto. }
  split.
  - intros p fr st I. apply (found_in _ _ _ _ _ J) in I. destruct I as (g & d & s & A & B & -> & X). inversion X; subst. split; [apply path_at; auto|]. split; [auto|].
    rewrite assoc_map in B. destruct (assoc g world) as [k|] eqn:C; [|discriminate]. cbn in B. apply some_inj in B. apply assoc_in in C. exists k. split; [auto|].
    pose proof (extract_right k (T _ _ C)) as R. unfold right in R. rewrite B in R. destruct R as (R1 & _ & R2). auto.
  - intros fr k F I X. pose proof (extract_right k (T _ _ I)) as R. unfold right in R. destruct (extract enc k) as [[d st]|] eqn:B; [|contradiction]. exists (srr_path (dir ++ 47 :: f) firsts fr), st.
    apply (found_in _ _ _ _ _ J). exists fr, d, st. split; [auto|]. split; [|auto]. rewrite assoc_map, (nodup_assoc _ _ _ N I). cbn. now rewrite B.
Qed.
Theorem languages_spec srr_out world firsts diz srrs lang after : (forall t, t <> [] -> enc t <> []) -> NoDup (map fst world) -> NoDup firsts -> (forall n k, In (n, k) world -> tidy k) ->
  create_srr_for_subs enc srr_out world firsts diz = (srrs, lang, after) ->
  exists d, all_languages enc (idx_from world firsts) d /\
    match after with
    | None => diz = None /\ forall path name data, ~ idx_from world firsts path name data
    | Some a => a = match diz with Some o => o | None => [] end ++ d
    end /\ (srrs <> [] -> lang = after) /\ (srrs = [] -> lang = None).
Proof.
  intros Z N D T E. unfold create_srr_for_subs in E. injection E as E1 E2 E3.
  pose proof (loop_languages world firsts N D (fun n k I => extract_right k (T n k I))) as L. rewrite <- (loop_diz (srr_path srr_out firsts)) in L.
  set (a := create_loop _ _ _) in *. exists (c_diz a). split; [exact L|]. split; [|split].
  - subst after. destruct (c_diz a) as [|x d] eqn:C; [|reflexivity]. destruct diz as [o|]; [now rewrite app_nil_r|]. split; [reflexivity|].
    intros path name data I. destruct L as (l & ss & _ & L2 & L3 & L4). apply L2 in I. clear - I L3 L4 Z. induction L3 as [|y s l ss Hy L3 IH]; [destruct I|].
    cbn [concat] in L4. symmetry in L4. apply app_eq_nil in L4. destruct L4 as (-> & L4). destruct Hy as (ls & _ & Q). symmetry in Q. apply app_eq_nil in Q. destruct Q as (Q & _).
    refine (Z _ _ Q). discriminate.
  - intros X. subst srrs. destruct (found a); [contradiction|]. subst. reflexivity.
  - intros X. subst srrs. rewrite X in E2. now subst.
Qed.
End E2.

Theorem start_spec isfile entries (sfv base e : text) : sfv = base ++ e -> length e = 4%nat -> Wanted.get_start_rar_files entries [sfv] = [] ->
  (exists c, start_rars isfile entries sfv = [c] /\ first_that isfile (map (app base) START) c) \/
  (start_rars isfile entries sfv = [] /\ forall x, In x START -> isfile (base ++ x) = false).
Proof.
  intros S L G. unfold start_rars. rewrite G. assert (C : cut_end 4 sfv = base).
  { subst sfv. unfold cut_end. rewrite rev_app_distr, dropN_app_exact; [apply rev_involutive|]. rewrite lenN_length, rev_length. lia. }
  rewrite C. unfold START. cbn [map].
  destruct (isfile (base ++ str ".rar")) eqn:A1; [left; eexists; split; [reflexivity|]; exists [], [base ++ str ".part1.rar"; base ++ str ".part01.rar"; base ++ str ".001"]; split; [reflexivity|]; split; [exact A1|intros x []]|].
  destruct (isfile (base ++ str ".part1.rar")) eqn:A2; [left; eexists; split; [reflexivity|]; exists [base ++ str ".rar"], [base ++ str ".part01.rar"; base ++ str ".001"]; split; [reflexivity|]; split; [exact A2|intros x [<-|[]]; exact A1]|].
  destruct (isfile (base ++ str ".part01.rar")) eqn:A3; [left; eexists; split; [reflexivity|]; exists [base ++ str ".rar"; base ++ str ".part1.rar"], [base ++ str ".001"]; split; [reflexivity|]; split; [exact A3|intros x [<-|[<-|[]]]; assumption]|].
  destruct (isfile (base ++ str ".001")) eqn:A4; [left; eexists; split; [reflexivity|]; exists [base ++ str ".rar"; base ++ str ".part1.rar"; base ++ str ".part01.rar"], []; split; [reflexivity|]; split; [exact A4|intros x [<-|[<-|[<-|[]]]]; assumption]|].
  right. split; [reflexivity|]. intros x [<-|[<-|[<-|[<-|[]]]]]; assumption.
Qed.
Theorem start_listed isfile entries sfv : Wanted.get_start_rar_files entries [sfv] <> [] -> start_rars isfile entries sfv = Wanted.get_start_rar_files entries [sfv].
Proof. intros H. unfold start_rars. now destruct (Wanted.get_start_rar_files entries [sfv]). Qed.
