(** VerifyFacts: proofs about the check of extracted files. *)
From Verif Require Import Base BaseFacts Path PathSpec PathFacts Crc CrcSpec CrcFacts Glob GlobFacts RarSpec SrrSpec SrrFacts Srr Info ListSpec ListFacts FsFacts Verify VerifySpec.

(** ** Extensions *)
Lemma cut_at_in c x y : ~ In c x -> cut_at c (x ++ c :: y) = Some (x, y).
Proof.
  induction x as [|a x IH]; intros H; cbn [app cut_at]; [now rewrite N.eqb_refl|].
  destruct (N.eqb_spec a c) as [->|_]; [exfalso; apply H; now left|]. rewrite IH; [reflexivity|]. intros X. apply H. now right.
Qed.
Lemma cut_at_some c t x y : cut_at c t = Some (x, y) -> t = x ++ c :: y /\ ~ In c x.
Proof.
  revert x y. induction t as [|a t IH]; intros x y H; cbn [cut_at] in H; [discriminate|].
  destruct (N.eqb_spec a c) as [->|D]; [injection H as <- <-; now split|].
  destruct (cut_at c t) as [[u v]|]; [|discriminate]. injection H as <- <-. destruct (IH u v eq_refl) as [-> N]. split; [reflexivity|]. intros [X|X]; [congruence|contradiction].
Qed.
Lemma forallb_dots b : Exists (fun x => x <> 46) b <-> forallb (N.eqb 46) (rev b) = false.
Proof.
  rewrite <- (Bool.not_true_iff_false). rewrite forallb_forall. split.
  - intros H F. apply Exists_exists in H as (x & I & D). apply in_rev in I. apply F in I. apply N.eqb_eq in I. congruence.
  - intros H. destruct (Exists_dec (fun x => x <> 46) b) as [E|E]; [intros x; destruct (N.eq_dec x 46); [right; auto|left; auto]|exact E|].
    exfalso. apply H. intros x I. apply in_rev in I. apply N.eqb_eq. destruct (N.eq_dec 46 x) as [X|X]; [exact X|]. exfalso. apply E. apply Exists_exists. exists x. split; [exact I|congruence].
Qed.
Lemma dotted_ext p a b c : dotted p a b c -> extension p = 46 :: c.
Proof.
  intros (-> & A & B & C & D & E). unfold extension. destruct (base_dir a (b ++ 46 :: c)) as [-> _]; [exact A| |].
  - rewrite in_app_iff. intros [X|[X|X]]; [contradiction|discriminate|contradiction].
  - rewrite rev_app_distr. cbn [rev]. rewrite <- app_assoc. cbn [app]. rewrite cut_at_in by now rewrite <- in_rev.
    apply forallb_dots in E. rewrite E, rev_involutive. reflexivity.
Qed.
Lemma extension_ok p : ext_of p (extension p).
Proof.
  destruct (cut_path p) as (h & b & -> & Hh & Hb). destruct (base_dir h b Hh Hb) as [B _].
  destruct (extension (h ++ b)) as [|x e] eqn:X.
  - apply ext_none. intros a b' c D. apply dotted_ext in D. congruence.
  - pose proof X as X0. unfold extension in X. rewrite B in X. destruct (cut_at 46 (rev b)) as [[c r]|] eqn:E; [|discriminate].
    destruct (forallb (N.eqb 46) r) eqn:F; [discriminate|]. injection X as <- <-. apply cut_at_some in E as [E N].
    apply (f_equal (@rev _)) in E. rewrite rev_involutive, rev_app_distr in E. cbn [rev] in E. rewrite <- app_assoc in E. cbn [app] in E.
    apply (ext_dot _ h (rev r) (rev c)). subst b. rewrite in_app_iff in Hb. split; [reflexivity|]. split; [exact Hh|]. split; [tauto|].
    split; [intros Y; apply Hb; right; now right|]. split; [now rewrite <- in_rev|]. apply forallb_dots. now rewrite rev_involutive.
Qed.
Lemma ext_of_is p e : ext_of p e -> e = extension p.
Proof.
  intros [a b c D|N]; [symmetry; now apply dotted_ext in D|]. destruct (extension_ok p) as [a b c D|_]; [|reflexivity]. exfalso. exact (N _ _ _ D).
Qed.
Lemma extension_in_folder f cs p : below cs p -> extension (in_folder f p) = extension p.
Proof. intros H. unfold extension. now rewrite (basename_in_folder _ _ _ H). Qed.

(** ** The pattern *)
Lemma literal_magic e : literal e -> magic e = false.
Proof.
  intros H. unfold magic. apply Bool.not_true_iff_false. rewrite existsb_exists. intros (c & I & M). unfold literal in H. rewrite Forall_forall in H. apply (H c I).
  unfold magic1 in M. cbn. destruct (N.eqb_spec c 91); [auto|]. destruct (N.eqb_spec c 93); [auto|]. destruct (N.eqb_spec c 42); [auto|]. destruct (N.eqb_spec c 63); [auto|]. discriminate.
Qed.
Lemma star_ok e : literal e -> forall fn, fnmatch fn (42 :: e) = true <-> exists a, fn = a ++ e.
Proof.
  intros L fn. unfold fnmatch. cbn [length translate]. rewrite N.eqb_refl.
  assert (M : forall x, imatch (translate (length e) e) x = teqb x e).
  { intros x. rewrite <- (escape_same e (literal_magic e L)) at 2. apply imatch_escape. rewrite (escape_same e (literal_magic e L)). reflexivity. }
  induction fn as [|c fn IH].
  - cbn [imatch]. rewrite M, orb_false_r, teqb_eq. split; [intros <-; now exists []|]. intros [a H]. symmetry in H. apply app_eq_nil in H as [_ H]. now symmetry.
  - cbn [imatch] in *. rewrite orb_true_iff, M, teqb_eq, IH. split.
    + intros [<-|[a ->]]; [now exists []|now exists (c :: a)].
    + intros [a H]. destruct a as [|x a]; [now left|]. injection H as _ ->. right. now exists a.
Qed.

(** ** One file *)
Section Disk.
Variables (disk : text -> option entry) (walk : list (text * list text)) (auto : bool) (folder : text).
Lemma crc_of_file p d : disk p = Some (EFile d) -> crc_of_path disk p = Ok (crc32 d).
Proof. intros H. unfold crc_of_path. rewrite H. apply calculate_crc32_ok. Qed.
Lemma same_sizes_ok size root names :
  Forall (fun fn => plain fn /\ exists d, disk (in_folder root fn) = Some (EFile d)) names ->
  exists l, same_sizes disk size root names = Ok l /\
  forall f, In f l <-> exists fn d, In fn names /\ f = in_folder root fn /\ disk f = Some (EFile d) /\ lenN d = size.
Proof.
  induction 1 as [|fn names (P & d & D) _ (l & E & IH)]; cbn [same_sizes].
  - exists []. split; [reflexivity|]. intros f. split; [intros []|]. intros (? & ? & [] & _).
  - rewrite (pjoin_folder root [fn]) by now apply plain_below. unfold getsize. rewrite D. cbn [bind]. rewrite E. cbn [bind].
    eexists. split; [reflexivity|]. intros f. destruct (N.eqb_spec (lenN d) size) as [S|S].
    + cbn [In]. rewrite IH. split.
      * intros [<-|(fn' & d' & I & R)]; [exists fn, d; auto|exists fn', d'; auto].
      * intros (fn' & d' & [<-|I] & F & R); [left; now symmetry|right; exists fn', d'; auto].
    + rewrite IH. split.
      * intros (fn' & d' & I & R). exists fn', d'. split; [now right|exact R].
      * intros (fn' & d' & [<-|I] & F & F' & R); [|exists fn', d'; auto]. subst f. rewrite D in F'. injection F' as <-. contradiction.
Qed.
Lemma list_ok size e : literal e -> forall w,
  Forall (fun rn => Forall (fun fn => plain fn /\ exists d, disk (in_folder (fst rn) fn) = Some (EFile d)) (snd rn)) w ->
  exists l, same_size_list disk size (42 :: e) w = Ok l /\
  forall f, In f l <-> exists root names fn d, In (root, names) w /\ In fn names /\ (exists a, fn = a ++ e) /\
    f = in_folder root fn /\ disk f = Some (EFile d) /\ lenN d = size.
Proof.
  intros L. induction w as [|[root names] w IH]; intros W; cbn [same_size_list].
  - exists []. split; [reflexivity|]. intros f. split; [intros []|]. intros (? & ? & ? & ? & [] & _).
  - inversion W as [|x y W1 W2]; subst. cbn [fst snd] in W1. destruct (IH W2) as (l2 & -> & H2).
    destruct (same_sizes_ok size root (filter (fun fn => fnmatch fn (42 :: e)) names)) as (l1 & -> & H1).
    { apply Forall_forall. intros fn I. apply filter_In in I as [I _]. rewrite Forall_forall in W1. auto. }
    cbn [bind]. eexists. split; [reflexivity|]. intros f. rewrite in_app_iff, H1, H2. split.
    + intros [(fn & d & I & R)|(r & ns & fn & d & I & R)].
      * apply filter_In in I as [I M]. apply (star_ok e L) in M. exists root, names, fn, d. split; [now left|]. tauto.
      * exists r, ns, fn, d. split; [now right|exact R].
    + intros (r & ns & fn & d & [X|I] & I2 & M & R).
      * injection X as <- <-. left. exists fn, d. split; [|exact R]. apply filter_In. split; [exact I2|]. now apply star_ok.
      * right. exists r, ns, fn, d. tauto.
Qed.
Lemma any_crc_ok c fs : Forall (fun f => exists d, disk f = Some (EFile d)) fs ->
  exists b, any_crc disk c fs = Ok b /\ (b = true <-> exists f d, In f fs /\ disk f = Some (EFile d) /\ is_crc32 d c).
Proof.
  induction 1 as [|f fs (d & D) _ (b & E & IH)]; cbn [any_crc].
  - exists false. split; [reflexivity|]. split; [discriminate|]. intros (? & ? & [] & _).
  - rewrite (crc_of_file _ _ D). cbn [bind]. destruct (N.eqb_spec c (crc32 d)) as [->|X].
    + exists true. split; [reflexivity|]. split; [|reflexivity]. intros _. exists f, d. split; [now left|]. split; [exact D|apply crc32_is].
    + exists b. split; [exact E|]. rewrite IH. split.
      * intros (f' & d' & I & R). exists f', d'. split; [now right|exact R].
      * intros (f' & d' & [<-|I] & F & C); [|exists f', d'; auto]. rewrite D in F. injection F as <-. exfalso. apply X. exact (is_crc32_unique d _ _ C (crc32_is d)).
Qed.

Variable l : list sitem.
Definition after (st v : N) : N := if v =? 0 then st else v.
Lemma one_ok st n a : walk_ok disk walk \/ auto = false -> checkable disk auto folder l n ->
  ai_name a = n -> recorded l n (ai_crc a) -> (forall size, says (of_name n (parts l)) size -> ai_size a = size) ->
  exists v, verify_one disk walk auto folder st a = Ok (after st v) /\ verdict disk walk auto folder l n v.
Proof.
  intros W (p & (cs & J & B) & ND & A) Hn Hc Hs.
  assert (SP : srr_path n p) by (now exists cs).
  assert (P : pjoin folder (replace1 BACKSLASH SLASH (ai_name a)) = in_folder folder p).
  { rewrite Hn. apply joined_replace in J. destruct B as (B1 & B2 & B3).
    assert (E : replace1 92 47 n = p). { clear - J B3. revert p B3. remember [47] as s. induction J as [c H|c s' cs t H I J IH]; intros p B3; inversion B3; subst; try reflexivity.
      - match goal with H : joined _ [] _ |- _ => inversion H end.
      - inversion J.
      - f_equal. destruct I as [<-|[]]. match goal with H : In _ [47] |- _ => destruct H as [<-|[]] end. f_equal. apply IH; assumption. }
    change BACKSLASH with 92. change SLASH with 47. rewrite E. apply (pjoin_folder folder cs). repeat split; assumption. }
  unfold verify_one. rewrite P. destruct (N.eqb_spec (ai_crc a) 0) as [Z|Z].
  { exists 0. split; [reflexivity|]. apply vd_none. now rewrite <- Z. }
  destruct (disk (in_folder folder p)) as [[d|]|] eqn:D; [| now contradiction ND|].
  - rewrite (crc_of_file _ _ D). cbn [bind]. destruct (N.eqb_spec (ai_crc a) (crc32 d)) as [E|E].
    + exists 0. split; [reflexivity|]. apply (vd_intact _ _ _ _ _ _ (ai_crc a) p d Hc SP D). rewrite E. apply crc32_is.
    + exists 1. split; [reflexivity|]. apply (vd_corrupt _ _ _ _ _ _ (ai_crc a) p d Hc Z SP D). intros C. apply E. exact (is_crc32_unique d _ _ C (crc32_is d)).
  - destruct auto eqn:Au; cbn [negb].
    2: { exists 2. split; [reflexivity|]. apply (vd_missing _ _ _ _ _ _ (ai_crc a) p Hc Z SP D). discriminate. }
    destruct W as [W|]; [|discriminate]. destruct (A eq_refl) as ((size & S) & L). rewrite (extension_in_folder _ _ _ B), (Hs _ S).
    destruct (list_ok size (extension p) (L _ (extension_ok p)) walk W) as (fs & -> & HF). cbn [bind].
    destruct (any_crc_ok (ai_crc a) fs) as (b & -> & HB).
    { apply Forall_forall. intros f I. apply HF in I as (_ & _ & _ & d & _ & _ & _ & _ & F & _). now exists d. }
    cbn [bind]. assert (R : b = true <-> renamed disk walk p size (ai_crc a)).
    { rewrite HB. unfold renamed. split.
      - intros (f & d & I & F & C). apply HF in I as (r & ns & fn & d' & I1 & I2 & E & -> & F' & S'). rewrite F in F'. injection F' as <-. exists r, ns, fn, d, (extension p).
        repeat split; try assumption. apply extension_ok.
      - intros (r & ns & fn & d & e & I1 & I2 & X & E & F & S' & C). apply ext_of_is in X. subst e. exists (in_folder r fn), d. split; [|now split]. apply HF. exists r, ns, fn, d. auto 10. }
    destruct b.
    + exists 0. split; [reflexivity|]. apply (vd_moved _ _ _ _ _ _ (ai_crc a) p size Hc SP D eq_refl S). now apply R.
    + exists 2. split; [reflexivity|]. apply (vd_missing _ _ _ _ _ _ (ai_crc a) p Hc Z SP D). intros _ s' S' Q. apply Hs in S'. apply Hs in S. rewrite <- S, S' in R. apply R in Q. discriminate.
Qed.

(** ** All files *)
Definition bad (vs : list N) : list N := filter (fun v => negb (v =? 0)) vs.
Lemma last_def (x : N) r d d' : last (x :: r) d = last (x :: r) d'.
Proof. revert x. induction r as [|y r IH]; intros x; [reflexivity|]. exact (IH y). Qed.
Lemma all_ok : walk_ok disk walk \/ auto = false -> forall fs ns st,
  Forall2 (fun n a => checkable disk auto folder l n /\ ai_name a = n /\ recorded l n (ai_crc a) /\ forall size, says (of_name n (parts l)) size -> ai_size a = size) ns fs ->
  exists vs, foldR (verify_one disk walk auto folder) fs st = Ok (last (bad vs) st) /\ Forall2 (verdict disk walk auto folder l) ns vs.
Proof.
  intros W fs ns st H. revert st. induction H as [|n a ns fs (C & N & R & S) _ IH]; intros st.
  - exists []. split; [reflexivity|constructor].
  - destruct (one_ok st n a W C N R S) as (v & E & V). cbn [foldR]. rewrite E. cbn [bind]. destruct (IH (after st v)) as (vs & -> & F).
    exists (v :: vs). split; [|constructor; assumption]. f_equal. unfold bad, after. cbn [filter]. destruct (v =? 0) eqn:Z; cbn [negb]; [reflexivity|].
    destruct (filter _ vs) as [|x r]; [reflexivity|]. exact (last_def x r v st).
Qed.
Variables lowf upf : text -> text.
Theorem verify_ok i : srr_ok l -> info lowf upf (ser_srr l) = Ok i -> parts l <> [] ->
  (auto = true -> walk_ok disk walk) -> (forall n c, recorded l n c -> checkable disk auto folder l n) ->
  exists ns vs, firsts (map (fun p => h_text (fst p)) (parts l)) ns /\ Forall2 (verdict disk walk auto folder l) ns vs /\
    verify disk walk lowf upf (ser_srr l) folder auto = Ok (last (filter (fun v => negb (v =? 0)) vs) 0).
Proof.
  intros O I P W C. destruct (archived_ok lowf upf l i O I) as (F & A & _). unfold verify. rewrite I. cbn [bind].
  assert (W' : walk_ok disk walk \/ auto = false) by (destruct auto; auto).
  assert (G : exists vs, foldR (verify_one disk walk auto folder) (map snd (i_files i)) 0 = Ok (last (bad vs) 0) /\ Forall2 (verdict disk walk auto folder l) (map fst (i_files i)) vs).
  { apply (all_ok W'). assert (K : forall na, In na (i_files i) -> checkable disk auto folder l (fst na) /\ ai_name (snd na) = fst na /\ recorded l (fst na) (ai_crc (snd na)) /\ forall size, says (of_name (fst na) (parts l)) size -> ai_size (snd na) = size).
    { intros [n a] In1. cbn [fst snd]. assert (J : In n (map (fun p => h_text (fst p)) (parts l))) by (apply (firsts_in _ _ F); apply (in_map fst) in In1; exact In1).
      apply in_map_iff in J as (p0 & Hp & Ip). assert (J : In p0 (of_name n (parts l))) by (apply filter_In; split; [exact Ip|]; destruct (text_dec (h_text (fst p0)) n); [reflexivity|contradiction]).
      destruct (of_name n (parts l)) as [|p q] eqn:Q; [destruct J|]. destruct (A n p q Q) as (a' & Ia & N & _ & Cr & S).
      assert (a' = a). { pose proof (firsts_nodup _ _ F) as ND. revert ND In1 Ia. generalize (i_files i) as l0. clear. intros l0. induction l0 as [|[k v] r IH]; intros ND I1 I2; [destruct I1|]. inversion ND as [|? ? N1 N2]; subst. cbn [In fst snd map] in *.
        destruct I1 as [E1|I1], I2 as [E2|I2].
        - congruence.
        - injection E1 as -> ->. exfalso. apply N1. apply (in_map fst) in I2. exact I2.
        - injection E2 as -> ->. exfalso. apply N1. apply (in_map fst) in I1. exact I1.
        - now apply IH. }
      subst a'. assert (R : recorded l n (ai_crc a)) by (exists p, q; split; assumption). split; [exact (C n _ R)|]. auto. }
    revert K. clear. induction (i_files i) as [|na r IH]; intros K; [constructor|]. cbn [map]. constructor; [apply K; now left|]. apply IH. intros na' I. apply K. now right. }
  destruct G as (vs & G & V). exists (map fst (i_files i)), vs. split; [exact F|]. split; [exact V|].
  destruct (i_files i) as [|na r] eqn:Z; [|exact G]. exfalso. destruct (parts l) as [|p0 q0] eqn:Y; [now apply P|]. cbn [map] in F. pose proof (firsts_in _ _ F (h_text (fst p0))) as X. destruct X as [_ X]. destruct (X (or_introl eq_refl)).
Qed.
Theorem verify_music i : srr_ok l -> info lowf upf (ser_srr l) = Ok i -> parts l = [] ->
  verify disk walk lowf upf (ser_srr l) folder auto = Ok 10.
Proof.
  intros O I P. destruct (archived_ok lowf upf l i O I) as (F & _). unfold verify. rewrite I. cbn [bind]. rewrite P in F. cbn [map] in F.
  destruct (i_files i) as [|na r]; [reflexivity|]. exfalso. pose proof (firsts_in _ _ F (fst na)) as X. destruct X as [X _]. destruct X. now left.
Qed.
End Disk.
