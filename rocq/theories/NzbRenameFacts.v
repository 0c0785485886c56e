(** NzbRenameFacts: proofs about the renaming of NZB files. *)
From Verif Require Import Base BaseFacts SrrFacts NzbRename NzbRenameSpec.

Lemma ends_is e t : ends e t = true <-> exists b, t = b ++ e.
Proof.
  unfold ends. rewrite Bool.andb_true_iff, N.leb_le, teqb_eq. split.
  - intros (L & H). exists (takeN (lenN t - lenN e) t). rewrite <- H at 2. now rewrite takeN_dropN.
  - intros (b & ->). rewrite lenN_app. split; [lia|]. apply dropN_app_exact. lia.
Qed.
Lemma music_is f : music_name (f_name f) = true <-> is_music f.
Proof.
  unfold music_name, is_music. rewrite !Bool.orb_true_iff, !ends_is. split; [intros [[(b & H)|(b & H)]|(b & H)]; exists b; auto|intros (b & [H|[H|H]]); eauto].
Qed.
(** the name *)
Definition next (nn : text) (f : nfile) : text := match nn with [] => f_long f | _ => nn end.
Definition ff (nn : text) (l : list nfile) (x : text) : Prop := match nn with [] => first_name l x | _ => x = nn end.
Lemma ff_nil nn x : ff nn [] x <-> x = nn.
Proof.
  destruct nn; [|reflexivity]. unfold ff, first_name. split.
  - intros [(H & _)|(a & f & b & H & _)]; [exact H|]. destruct a; discriminate H.
  - intros ->. left. split; [reflexivity|intros f []].
Qed.
Lemma ff_cons nn f l x : ff nn (f :: l) x <-> ff (next nn f) l x.
Proof.
  destruct nn as [|c nn]; [|reflexivity]. cbn [next ff]. destruct (f_long f) as [|c t] eqn:L; unfold ff, first_name.
  - split.
    + intros [(-> & H)|(a & h & b & E & Hx & N0 & H)]; [left; split; [reflexivity|]; intros h Hh; apply H; now right|]. destruct a as [|k a]; cbn [app] in E.
      * injection E as -> ->. congruence.
      * injection E as -> ->. right. exists a, h, b. split; [reflexivity|]. split; [exact Hx|]. split; [exact N0|]. intros j Hj. apply H. now right.
    + intros [(-> & H)|(a & h & b & -> & Hx & N0 & H)]; [left; split; [reflexivity|]; intros h [<-|Hh]; [exact L|auto]|].
      right. exists (f :: a), h, b. split; [reflexivity|]. split; [exact Hx|]. split; [exact N0|]. intros j [<-|Hj]; [exact L|auto].
  - split.
    + intros [(-> & H)|(a & h & b & E & Hx & N0 & H)]; [specialize (H f (or_introl eq_refl)); congruence|]. destruct a as [|k a]; cbn [app] in E; injection E as -> ->; [congruence|]. specialize (H k (or_introl eq_refl)). congruence.
    + intros ->. right. exists [], f, l. split; [reflexivity|]. split; [exact L|]. split; [discriminate|intros h []].
Qed.
Definition about_from (nn : text) (l : list nfile) (x : text) (g : bool) : Prop :=
  (g = false /\ (forall f, In f l -> ~ is_music f) /\ ff nn l x) \/
  (g = true /\ exists a f b, l = a ++ f :: b /\ is_music f /\ (forall h, In h a -> ~ is_music h) /\ ff nn (a ++ [f]) x).
Lemma process_is l : forall nn x g, process l nn = (x, g) <-> about_from nn l x g.
Proof.
  induction l as [|f l IH]; intros nn x g; cbn [process].
  - split.
    + intros H. apply pair_equal_spec in H. destruct H as [<- <-]. left. split; [reflexivity|]. split; [intros f []|now apply ff_nil].
    + intros [(-> & _ & H)|(_ & a & f & b & H & _)]; [apply ff_nil in H; now subst x|destruct a; discriminate H].
  - fold (next nn f). destruct (music_name (f_name f)) eqn:M.
    + apply music_is in M. split.
      * intros H. apply pair_equal_spec in H. destruct H as [<- <-]. right. split; [reflexivity|]. exists [], f, l. split; [reflexivity|]. split; [exact M|]. split; [intros h []|]. cbn [app]. apply ff_cons. now apply ff_nil.
      * intros [(_ & H & _)|(-> & a & h & b & E & Mh & Na & F)]; [destruct (H f (or_introl eq_refl) M)|]. destruct a as [|k a]; cbn [app] in *; injection E as -> ->; [|destruct (Na k (or_introl eq_refl) M)].
        apply ff_cons in F. apply ff_nil in F. now subst x.
    + assert (NM : ~ is_music f) by (rewrite <- music_is; congruence). rewrite IH. unfold about_from. split.
      * intros [(-> & H & F)|(-> & a & h & b & -> & Mh & Na & F)].
        -- left. split; [reflexivity|]. split; [intros h [<-|Hh]; auto|now apply ff_cons].
        -- right. split; [reflexivity|]. exists (f :: a), h, b. split; [reflexivity|]. split; [exact Mh|]. split; [intros j [<-|Hj]; auto|]. cbn [app]. now apply ff_cons.
      * intros [(-> & H & F)|(-> & a & h & b & E & Mh & Na & F)].
        -- left. split; [reflexivity|]. split; [intros h Hh; apply H; now right|now apply ff_cons].
        -- right. split; [reflexivity|]. destruct a as [|k a]; cbn [app] in *; injection E as -> ->; [contradiction|]. exists a, h, b. split; [reflexivity|]. split; [exact Mh|]. split; [intros j Hj; apply Na; now right|now apply ff_cons].
Qed.
Theorem about_thm l x g : process l [] = (x, g) <-> about l x g.
Proof. exact (process_is l [] x g). Qed.
(** one name *)
Lemma slash_is x : existsb (N.eqb 47) x = true <-> In 47 x.
Proof. rewrite existsb_exists. split; [intros (c & I & E); apply N.eqb_eq in E; now subst c|intros I; exists 47; now rewrite N.eqb_refl]. Qed.
Lemma step_is d s cur n : s_in s n = d n -> (forall g, s_out s g = IsDir (cur g)) -> (forall g t c, goes d n g t c -> cur g n = None) ->
  (forall l x g, (exists b, n = b ++ str ".nzb") -> d n = Some (Files l) -> about l x g -> ~ In 47 x) ->
  (exists g t c, goes d n g t c /\ step s n = mkState (del n (s_in s)) (set_out g (IsDir (put t c (cur g))) (s_out s))) \/ (step s n = s /\ forall g t c, ~ goes d n g t c).
Proof.
  intros Hi Ho Hn Hs. unfold step. destruct (ends (str ".nzb") n) eqn:E.
  2:{ right. split; [reflexivity|]. intros g t c (X & _). apply ends_is in X. congruence. }
  apply ends_is in E. rewrite Hi. destruct (d n) as [[l|k]|] eqn:D.
  - destruct (process l []) as [x g] eqn:P. apply about_thm in P. pose proof (Hs l x g E eq_refl P) as Nx. left. exists g, (x ++ str ".nzb"), (Files l).
    assert (G : goes d n g (x ++ str ".nzb") (Files l)) by (split; [exact E|]; exists l, x; auto). split; [exact G|]. rewrite Ho, (Hn _ _ _ G).
    destruct (existsb (N.eqb 47) x) eqn:S0; [apply slash_is in S0; contradiction|reflexivity].
  - right. split; [reflexivity|]. intros g t c (_ & l & x & A & B & _). congruence.
  - right. split; [reflexivity|]. intros g t c (_ & l & x & A & _). congruence.
Qed.
Lemma goes_unique d n g t c g' t' c' : goes d n g t c -> goes d n g' t' c' -> g = g' /\ t = t' /\ c = c'.
Proof.
  intros (_ & l & x & A & B & P & _ & T) (_ & l' & x' & A' & B' & P' & _ & T'). assert (c = c') by congruence. assert (l = l') by congruence. subst l'. apply about_thm in P, P'. rewrite P in P'. apply pair_equal_spec in P'. destruct P' as [<- <-]. split; [reflexivity|]. split; congruence.
Qed.
Lemma put_same k c d : put k c d k = Some c.
Proof. unfold put. now rewrite teqb_refl. Qed.
Lemma put_other k c d q : q <> k -> put k c d q = d q.
Proof. intros H. unfold put. destruct (teqb k q) eqn:E; [apply teqb_eq in E; congruence|reflexivity]. Qed.
Lemma del_same k d : del k d k = None.
Proof. unfold del. now rewrite teqb_refl. Qed.
Lemma del_other k d q : q <> k -> del k d q = d q.
Proof. intros H. unfold del. destruct (teqb k q) eqn:E; [apply teqb_eq in E; congruence|reflexivity]. Qed.
(** all names *)
Lemma loop names d (slash : forall n l x g, In n names -> (exists b, n = b ++ str ".nzb") -> d n = Some (Files l) -> about l x g -> ~ In 47 x)
  (two : forall n m g t t' c c', In n names -> In m names -> n <> m -> goes d n g t c -> goes d m g t' c' -> t <> t' /\ t <> m) :
  forall ps s cur, NoDup ps -> (forall n, In n ps -> In n names) -> (forall n, In n ps -> s_in s n = d n) -> (forall g, s_out s g = IsDir (cur g)) ->
  (forall n g t c, In n ps -> goes d n g t c -> cur g n = None) ->
  exists o', (forall g, s_out (fold_left step ps s) g = IsDir (o' g)) /\
    (forall n g t c, In n ps -> goes d n g t c -> s_in (fold_left step ps s) n = None /\ o' g t = Some c) /\
    (forall n, (forall g t c, In n ps -> ~ goes d n g t c) -> s_in (fold_left step ps s) n = s_in s n) /\
    (forall g t, (forall n c, In n ps -> ~ goes d n g t c) -> o' g t = cur g t).
Proof.
  induction ps as [|a ps IH]; intros s cur ND HN HI HO HC; cbn [fold_left].
  { exists cur. split; [exact HO|]. split; [intros n g t c []|]. split; reflexivity. }
  inversion ND as [|? ? Na ND']; subst. assert (Ia : In a names) by (apply HN; now left). assert (HN' : forall n, In n ps -> In n names) by (intros n Hn; apply HN; now right).
  destruct (step_is d s cur a (HI a (or_introl eq_refl)) HO (fun g t c => HC a g t c (or_introl eq_refl)) (fun l x g => slash a l x g Ia)) as [(g0 & t0 & c0 & G0 & ->)|(-> & No)].
  - set (cur2 := fun h => if Bool.eqb g0 h then put t0 c0 (cur g0) else cur h).
    destruct (IH (mkState (del a (s_in s)) (set_out g0 (IsDir (put t0 c0 (cur g0))) (s_out s))) cur2 ND' HN') as (o' & A & B & C & D).
    + intros n Hn. cbn [s_in]. rewrite del_other by congruence. apply HI. now right.
    + intros h. cbn [s_out]. unfold set_out, cur2. destruct (Bool.eqb g0 h); [reflexivity|apply HO].
    + intros n g t c Hn Hg. unfold cur2. destruct (Bool.eqb g0 g) eqn:E; [|exact (HC n g t c (or_intror Hn) Hg)]. apply Bool.eqb_prop in E. subst g.
      assert (N1 : a <> n) by congruence. rewrite put_other; [exact (HC n g0 t c (or_intror Hn) Hg)|]. intros <-. exact (proj2 (two a n g0 n t c0 c Ia (HN' n Hn) N1 G0 Hg) eq_refl).
    + exists o'. split; [exact A|]. split; [|split].
      * intros n g t c [<-|Hn] Hg; [|exact (B n g t c Hn Hg)]. destruct (goes_unique _ _ _ _ _ _ _ _ G0 Hg) as (<- & <- & <-). split.
        -- rewrite C by (intros g t c Hi; contradiction). cbn [s_in]. apply del_same.
        -- rewrite D; [unfold cur2; rewrite Bool.eqb_reflx; apply put_same|]. intros n c Hn Hg'. assert (N1 : a <> n) by congruence. exact (proj1 (two a n g0 t0 t0 c0 c Ia (HN' n Hn) N1 G0 Hg') eq_refl).
      * intros n Hn. rewrite C by (intros g t c Hi; apply Hn; now right). cbn [s_in]. apply del_other. intros ->. exact (Hn g0 t0 c0 (or_introl eq_refl) G0).
      * intros g t Ht. rewrite D by (intros n c Hi; apply Ht; now right). unfold cur2. destruct (Bool.eqb g0 g) eqn:E; [|reflexivity]. apply Bool.eqb_prop in E. subst g. apply put_other. intros ->. exact (Ht a c0 (or_introl eq_refl) G0).
  - destruct (IH s cur ND' HN') as (o' & A & B & C & D); [intros n Hn; apply HI; now right|exact HO|intros n g t c Hn; apply HC; now right|].
    exists o'. split; [exact A|]. split; [|split].
    + intros n g t c [<-|Hn] Hg; [destruct (No _ _ _ Hg)|exact (B n g t c Hn Hg)].
    + intros n Hn. apply C. intros g t c Hi. apply Hn. now right.
    + intros g t Ht. apply D. intros n c Hi. apply Ht. now right.
Qed.
Theorem main_thm names d p o : (forall g, make_dirs p g = IsDir (o g)) -> free names d o -> exists o', (forall g, s_out (main p names d) g = IsDir (o' g)) /\
  (forall n g t c, In n names -> goes d n g t c -> s_in (main p names d) n = None /\ o' g t = Some c) /\
  (forall n, (forall g t c, In n names -> ~ goes d n g t c) -> s_in (main p names d) n = d n) /\
  (forall g t, (forall n c, In n names -> ~ goes d n g t c) -> o' g t = o g t).
Proof.
  intros Ho (ND & Sl & Fr & Two). unfold main. apply (loop names d Sl Two names (mkState d (make_dirs p)) o ND); [auto|reflexivity|exact Ho|].
  intros n g t c Hn Hg. exact (proj2 (Fr n g t c Hn Hg)).
Qed.
(** what is not an NZB file that can be read stays in any case *)
Theorem stay_thm names d p n : ((forall b, n <> b ++ str ".nzb") \/ (forall l, d n <> Some (Files l))) -> s_in (main p names d) n = d n.
Proof.
  intros H. unfold main. change d with (s_in (mkState d (make_dirs p))) in H at 1. change (d n) with (s_in (mkState d (make_dirs p)) n). revert H. generalize (mkState d (make_dirs p)). intros s.
  revert s. induction names as [|a names IH]; intros s H; [reflexivity|]. cbn [fold_left].
  assert (E : s_in (step s a) n = s_in s n).
  { unfold step. destruct (ends (str ".nzb") a) eqn:E; [|reflexivity]. apply ends_is in E. destruct (s_in s a) as [[l|k]|] eqn:D; try reflexivity. assert (N0 : n <> a) by (intros ->; destruct H as [H|H]; [destruct E as (b & E); exact (H b E)|exact (H l D)]).
    destruct (process l []) as [x g]. destruct (s_out s g) as [|c|dd]; [cbn [s_in]; now apply del_other|cbn [s_in]; now apply del_other|]. destruct (dd a); [reflexivity|cbn [s_in]; now apply del_other]. }
  rewrite IH, E; [reflexivity|]. now rewrite E.
Qed.
Theorem new_thm names d : free names d (fun _ _ => None) -> exists o', (forall g, s_out (main None names d) g = IsDir (o' g)) /\
  (forall n g t c, In n names -> goes d n g t c -> s_in (main None names d) n = None /\ o' g t = Some c) /\
  (forall n, (forall g t c, In n names -> ~ goes d n g t c) -> s_in (main None names d) n = d n) /\
  (forall g t, (forall n c, In n names -> ~ goes d n g t c) -> o' g t = None).
Proof. intros F. exact (main_thm names d None (fun _ _ => None) (fun _ => eq_refl) F). Qed.
