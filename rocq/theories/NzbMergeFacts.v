(** NzbMergeFacts: proofs about merging NZB files. *)
From Coq Require Import Permutation Sorted.
From Verif Require Import Base BaseFacts SrrFacts NzbMerge NzbMergeSpec.

Section Merge.
Variables (A : Type) (cwd_dir : text -> bool).
Notation seen := (seen cwd_dir). Notation picks := (picks A cwd_dir). Notation cand := (cand cwd_dir). Notation merge_nzbs := (merge_nzbs A cwd_dir). Notation main := (main A cwd_dir).
Notation len x := (lenN (fst x)).
Lemma cand_is n : cand n = true <-> seen n.
Proof.
  unfold NzbMerge.cand, NzbMergeSpec.seen. rewrite Bool.andb_true_iff, Bool.negb_true_iff, teqb_eq. split.
  - intros (C & H). split; [exact C|]. exists (takeN (lenN n - 4) n), (dropN (lenN n - 4) n). split; [now rewrite takeN_dropN|exact H].
  - intros (C & b & e & -> & H). split; [exact C|]. assert (L : lenN e = 4) by (pose proof (f_equal lenN H) as X; unfold lower in X; rewrite !lenN_length, map_length in X; rewrite lenN_length; exact X).
    rewrite lenN_app, L. rewrite dropN_app_exact by lia. exact H.
Qed.
(** sorting *)
Lemma insert_perm x (l : folder A) : Permutation (x :: l) (insert A x l).
Proof. induction l as [|y l IH]; [reflexivity|]. cbn [insert]. destruct (len x <=? len y); [reflexivity|]. rewrite perm_swap. now constructor. Qed.
Lemma sorted_perm (l : folder A) : Permutation l (sorted A l).
Proof. induction l as [|x l IH]; [reflexivity|]. cbn [sorted fold_right]. fold (sorted A l). rewrite <- insert_perm. now constructor. Qed.
Lemma insert_sorted x (l : folder A) : StronglySorted (fun x y => len x <= len y) l -> StronglySorted (fun x y => len x <= len y) (insert A x l).
Proof.
  induction l as [|y l IH]; intros H; [repeat constructor|]. cbn [insert]. inversion H as [|? ? H1 H2]; subst. destruct (len x <=? len y) eqn:E.
  - constructor; [exact H|]. apply N.leb_le in E. constructor; [exact E|]. rewrite Forall_forall in *. intros z Hz. exact (N.le_trans _ _ _ E (H2 z Hz)).
  - constructor; [now apply IH|]. rewrite <- insert_perm. apply N.leb_gt in E. constructor; [exact (N.lt_le_incl _ _ E)|exact H2].
Qed.
Lemma sorted_sorted (l : folder A) : StronglySorted (fun x y => len x <= len y) (sorted A l).
Proof. induction l as [|x l IH]; [constructor|]. cbn [sorted fold_right]. now apply insert_sorted. Qed.
Lemma insert_stable n x (l : folder A) : filter (fun x => len x =? n) (insert A x l) = filter (fun x => len x =? n) (x :: l).
Proof.
  induction l as [|y l IH]; [reflexivity|]. cbn [insert]. destruct (len x <=? len y) eqn:E; [reflexivity|]. cbn [filter] in *. rewrite IH.
  unfold folder, text in *. destruct (len x =? n) eqn:X, (len y =? n) eqn:Y; try reflexivity. exfalso. apply N.leb_gt in E. apply N.eqb_eq in X, Y. rewrite X, Y in E. exact (N.lt_irrefl _ E).
Qed.
Lemma sorted_stable n (l : folder A) : filter (fun x => len x =? n) (sorted A l) = filter (fun x => len x =? n) l.
Proof. induction l as [|x l IH]; [reflexivity|]. cbn [sorted fold_right]. fold (sorted A l). rewrite insert_stable. cbn [filter]. now rewrite IH. Qed.
(** the files that are read *)
Definition conv (x : text * list A) : text * entry A := (fst x, Nzb (snd x)).
Lemma conv_inj x y : conv x = conv y -> x = y.
Proof. destruct x, y. unfold conv. cbn [fst snd]. congruence. Qed.
Lemma picks_filter f cs : picks f cs -> filter (fun x => cand (fst x)) f = map conv cs.
Proof.
  induction 1 as [|n a f cs S0 _ IH|n e f cs S0 _ IH]; [reflexivity| |]; cbn [filter fst map]; rewrite <- IH.
  - now rewrite (proj2 (cand_is n) S0).
  - destruct (cand n) eqn:E; [apply cand_is in E; contradiction|reflexivity].
Qed.
Lemma read_conv l : read_all A (map conv l) = Ok (flat_map snd l).
Proof. induction l as [|[n a] l IH]; [reflexivity|]. cbn [map conv fst snd read_all flat_map]. rewrite IH. reflexivity. Qed.
Lemma filter_conv n l : filter (fun x => len x =? n) (map conv l) = map conv (filter (fun x => len x =? n) l).
Proof.
  induction l as [|x l IH]; [reflexivity|]. cbn [map filter]. rewrite IH.
  assert (X : forall (b c : bool) F, b = c -> (if b then conv x :: map conv F else map conv F) = map conv (if c then x :: F else F)) by (intros [] [] F E; try discriminate E; reflexivity).
  apply X. reflexivity.
Qed.
Lemma map_conv_inj l : forall l', map conv l = map conv l' -> l = l'.
Proof. induction l as [|x l IH]; intros [|y l'] H; try discriminate H; [reflexivity|]. cbn [map] in H. injection H as H1 H2 H3. f_equal; [destruct x, y; cbn [fst snd] in *; congruence|now apply IH]. Qed.
Lemma by_is cs : exists l, sorted A (map conv cs) = map conv l /\ by_length A cs l.
Proof.
  destruct (Permutation_map_inv conv cs (Permutation_sym (sorted_perm (map conv cs)))) as (l & E & P). exists l. split; [exact E|]. split; [exact P|]. split.
  - pose proof (sorted_sorted (map conv cs)) as S0. rewrite E in S0. clear - S0. induction l as [|x l IH]; [constructor|]. cbn [map] in S0. inversion S0 as [|? ? H1 H2]; subst. constructor; [now apply IH|].
    rewrite Forall_forall in *. intros y Hy. exact (H2 (conv y) (in_map conv _ _ Hy)).
  - intros n. apply map_conv_inj. rewrite <- !filter_conv, <- E. apply sorted_stable.
Qed.
Lemma names_perm (f l : folder A) : Permutation (filter (fun x => cand (fst x)) f) l -> NoDup (map fst f) -> NoDup (map fst l) /\ forall n, In n (map fst l) <-> In n (map fst f) /\ seen n.
Proof.
  intros P ND. split.
  - apply (Permutation_NoDup (Permutation_map fst P)). clear P. induction f as [|x f IH]; [constructor|]. cbn [map] in ND. inversion ND as [|? ? H1 H2]; subst. cbn [filter]. destruct (cand (fst x)); [|now apply IH]. cbn [map]. constructor; [|now apply IH].
    intros X. apply H1. apply in_map_iff in X. destruct X as (y & E & Y). apply filter_In in Y. apply in_map_iff. exists y. tauto.
  - intros n. rewrite in_map_iff. split.
    + intros (x & <- & I). apply (Permutation_in _ (Permutation_sym P)) in I. apply filter_In in I. destruct I as [I C]. split; [now apply in_map|now apply cand_is].
    + intros (I & S0). apply in_map_iff in I. destruct I as (x & <- & I). exists x. split; [reflexivity|]. apply (Permutation_in _ P). apply filter_In. split; [exact I|now apply cand_is].
Qed.
Lemma in_set k v (f : folder A) n e : In (n, e) (set A k v f) <-> (n = k /\ e = v /\ In k (map fst f)) \/ (n <> k /\ In (n, e) f).
Proof.
  unfold set. rewrite in_map_iff. split.
  - intros ((m & g) & E & I). cbn [fst] in E. destruct (teqb m k) eqn:T0.
    + apply teqb_eq in T0. subst m. apply pair_equal_spec in E. destruct E as [-> ->]. left. split; [reflexivity|]. split; [reflexivity|]. apply in_map_iff. now exists (n, g).
    + apply pair_equal_spec in E. destruct E as [-> ->]. right. split; [|exact I]. intros ->. rewrite teqb_refl in T0. discriminate T0.
  - intros [(-> & -> & I)|(N0 & I)].
    + apply in_map_iff in I. destruct I as ((m & g) & E & I). cbn [fst] in E. subst m. exists (k, g). cbn [fst]. now rewrite teqb_refl.
    + exists (n, e). split; [|exact I]. cbn [fst]. destruct (teqb n k) eqn:T0; [apply teqb_eq in T0; contradiction|reflexivity].
Qed.
Lemma in_remove ks (f : folder A) n e : In (n, e) (remove A ks f) <-> ~ In n ks /\ In (n, e) f.
Proof.
  unfold remove. rewrite filter_In. cbn [fst]. rewrite Bool.negb_true_iff. assert (X : existsb (teqb n) ks = true <-> In n ks).
  { rewrite existsb_exists. split; [intros (m & I & E); apply teqb_eq in E; now subst m|intros I; exists n; split; [exact I|apply teqb_refl]]. }
  split.
  - intros (I & E). split; [intros J; apply X in J; congruence|exact I].
  - intros (N0 & I). split; [exact I|]. destruct (existsb (teqb n) ks); [destruct N0; now apply X|reflexivity].
Qed.
(** Python 2 *)
Theorem merge_thm f cs : NoDup (map fst f) -> picks f cs -> (lenN cs < 2 -> merge_nzbs false f = (f, None)) /\
  (2 <= lenN cs -> exists f', merge_nzbs false f = (f', None) /\ merged A cwd_dir f cs f').
Proof.
  intros ND P. destruct (by_is cs) as (l & E & B). pose proof (picks_filter f cs P) as F. pose proof (sorted_perm (filter (fun x => cand (fst x)) f)) as PM. rewrite F, E in PM.
  assert (L : lenN cs = lenN l) by (rewrite !lenN_length; f_equal; apply Permutation_length; exact (proj1 B)). unfold NzbMerge.merge_nzbs. rewrite F, E. split; intros H.
  - destruct l as [|x [|y l]]; cbn [map]; [reflexivity|now destruct (conv x)|rewrite L, !lenN_cons in H; lia].
  - destruct l as [|[k a] [|y l]]; [rewrite L in H; cbn in H; lia|rewrite L in H; cbn in H; lia|]. rewrite <- F in PM. destruct (names_perm _ _ PM ND) as [ND' I0]. clear PM.
    cbn [map] in *. change (conv (k, a)) with (k, Nzb a) in *. cbv iota beta. change ((k, Nzb a) :: conv y :: map conv l) with (map conv ((k, a) :: y :: l)). rewrite read_conv. cbn [fst] in *.
    eexists. split; [reflexivity|]. exists k, a, (y :: l). split; [exact B|]. intros n e. rewrite in_remove, in_set. inversion ND' as [|? ? N1 N2]; subst.
    change (flat_map snd ((k, a) :: y :: l)) with (a ++ flat_map snd (y :: l)). cbn [map]. split.
    + intros (Nk & [(-> & -> & _)|(Nn & I)]); [now left|right]. split; [exact I|]. intros S0. destruct (proj2 (I0 n)) as [J|J]; [split; [apply in_map_iff; now exists (n, e)|exact S0]|congruence|contradiction].
    + intros [(-> & ->)|(I & S0)].
      * split; [exact N1|]. left. split; [reflexivity|]. split; [reflexivity|]. apply (I0 k). now left.
      * split; [intros J; apply S0; apply (I0 n); now right|]. right. split; [|exact I]. intros ->. apply S0. apply (I0 k). now left.
Qed.
(** an error of reading: nothing is changed *)
Lemma read_picks f x : NoDup (map fst f) -> (forall cs, ~ picks f cs) -> read_all A (sorted A (filter (fun y => cand (fst y)) f)) = Ok x -> False.
Proof.
  intros _ NP R0. assert (All : forall l r, read_all A l = Ok r -> forall n e, In (n, e) l -> exists a, e = Nzb a).
  { induction l as [|[m g] l IH]; intros r R1 n e I; [destruct I|]. cbn [read_all] in R1. destruct g as [a| | |]; try discriminate R1. destruct I as [I|I]; [injection I as _ <-; now exists a|].
    destruct (read_all A l) as [b|] eqn:X; [|discriminate R1]. exact (IH b eq_refl n e I). }
  specialize (All _ _ R0). clear R0. assert (All' : forall n e, In (n, e) f -> seen n -> exists a, e = Nzb a).
  { intros n e I S0. apply (All n e). apply (Permutation_in _ (sorted_perm _)). apply filter_In. split; [exact I|now apply cand_is]. }
  clear All. assert (exists cs, picks f cs); [|destruct H as (cs & H); exact (NP cs H)]. clear NP. induction f as [|[n e] f IH]; [exists []; constructor|].
  destruct IH as (cs & H); [intros m g I; apply All'; now right|]. destruct (cand n) eqn:E.
  - apply cand_is in E. destruct (All' n e (or_introl eq_refl) E) as (a & ->). exists ((n, a) :: cs). now constructor.
  - exists cs. apply pk_skip; [|exact H]. intros S0. apply cand_is in S0. congruence.
Qed.
Theorem unread_thm py3 f : NoDup (map fst f) -> (forall cs, ~ picks f cs) -> fst (merge_nzbs py3 f) = f.
Proof.
  intros ND NP. pose proof (fun x => read_picks f x ND NP) as R0. unfold NzbMerge.merge_nzbs. destruct (sorted A _) as [|[k e] [|r rs]]; [reflexivity..|].
  destruct (read_all A _) as [all|]; [destruct (R0 all eq_refl)|reflexivity].
Qed.
(** Python 3 *)
Theorem merge3_thm f cs : NoDup (map fst f) -> picks f cs -> 2 <= lenN cs -> exists f' k a l, merge_nzbs true f = (f', Some TypeError) /\ by_length A cs ((k, a) :: l) /\
  forall n e, In (n, e) f' <-> (n = k /\ e = Empty) \/ (In (n, e) f /\ n <> k).
Proof.
  intros ND P H. destruct (by_is cs) as (l & E & B). pose proof (picks_filter f cs P) as F. pose proof (sorted_perm (filter (fun x => cand (fst x)) f)) as PM. rewrite F, E in PM.
  assert (L : lenN cs = lenN l) by (rewrite !lenN_length; f_equal; apply Permutation_length; exact (proj1 B)). unfold NzbMerge.merge_nzbs. rewrite F, E.
  destruct l as [|[k a] [|y l]]; [rewrite L in H; cbn in H; lia|rewrite L in H; cbn in H; lia|]. rewrite <- F in PM. destruct (names_perm _ _ PM ND) as [_ I0]. clear PM.
  cbn [map] in *. change (conv (k, a)) with (k, Nzb a) in *. cbv iota beta. change ((k, Nzb a) :: conv y :: map conv l) with (map conv ((k, a) :: y :: l)). rewrite read_conv.
  eexists. exists k, a, (y :: l). split; [reflexivity|]. split; [exact B|]. intros n e. rewrite in_set. split.
  - intros [(-> & -> & _)|(N0 & I)]; auto.
  - intros [(-> & ->)|(I & N0)]; [left|right; auto]. split; [reflexivity|]. split; [reflexivity|]. apply (I0 k). now left.
Qed.
(** all releases *)
Lemma done_is f f' : NoDup (map fst f) -> merge_nzbs false f = (f', None) -> done A cwd_dir f f'.
Proof.
  intros ND H. pose proof H as H0. unfold NzbMerge.merge_nzbs in H. pose proof (sorted_perm (filter (fun x => cand (fst x)) f)) as PM.
  assert (Single : (length (sorted A (filter (fun x => cand (fst x)) f)) < 2)%nat -> single A cwd_dir f).
  { intros L n e m e' I1 S1 I2 S2. assert (J : forall n e, In (n, e) f -> seen n -> In (n, e) (sorted A (filter (fun x => cand (fst x)) f))).
    { intros u v Iu Su. apply (Permutation_in _ PM). apply filter_In. split; [exact Iu|now apply cand_is]. }
    pose proof (J _ _ I1 S1) as J1. pose proof (J _ _ I2 S2) as J2. destruct (sorted A _) as [|x [|y z]]; [destruct J1| |cbn [length] in L; lia]. destruct J1 as [->|[]], J2 as [J2|[]]. congruence. }
  destruct (sorted A (filter (fun x => cand (fst x)) f)) as [|[k e] [|r rs]] eqn:E.
  - apply pair_equal_spec in H. destruct H as [<- _]. left. split; [reflexivity|]. apply Single. cbn. lia.
  - apply pair_equal_spec in H. destruct H as [<- _]. left. split; [reflexivity|]. apply Single. cbn. lia.
  - destruct (read_all A _) as [all|] eqn:R0; [|discriminate H]. right.
    assert (X : exists cs, picks f cs).
    { assert (All : forall l r, read_all A l = Ok r -> forall n e, In (n, e) l -> exists a, e = Nzb a).
      { clear. induction l as [|[m g] l IH]; intros r R1 n e I; [destruct I|]. cbn [read_all] in R1. destruct g as [a| | |]; try discriminate R1. destruct I as [I|I]; [injection I as _ <-; now exists a|].
        destruct (read_all A l) as [b|] eqn:X; [|discriminate R1]. exact (IH b eq_refl n e I). }
      specialize (All _ _ R0). assert (All' : forall n e, In (n, e) f -> seen n -> exists a, e = Nzb a).
      { intros n g I S0. apply (All n g). apply (Permutation_in _ PM). apply filter_In. split; [exact I|now apply cand_is]. }
      clear - All'. induction f as [|[n e] f IH]; [exists []; constructor|]. destruct IH as (cs & H); [intros m g I; apply All'; now right|]. destruct (cand n) eqn:E.
      - apply cand_is in E. destruct (All' n e (or_introl eq_refl) E) as (a & ->). exists ((n, a) :: cs). now constructor.
      - exists cs. apply pk_skip; [|exact H]. intros S0. apply cand_is in S0. congruence. }
    destruct X as (cs & P). exists cs. split; [exact P|]. assert (L : 2 <= lenN cs).
    { pose proof (Permutation_length PM) as Q. rewrite (picks_filter f cs P), map_length in Q. cbn [length] in Q. rewrite lenN_length. lia. }
    split; [exact L|]. destruct (proj2 (merge_thm f cs ND P) L) as (f2 & E2 & M). rewrite H0 in E2. apply pair_equal_spec in E2. destruct E2 as [-> _]. exact M.
Qed.
Theorem main_thm (l l' : list (text * option (folder A))) : (forall n f, In (n, Some f) l -> NoDup (map fst f)) -> main false l = (l', None) ->
  Forall2 (fun x y => fst x = fst y /\ (cwd_dir (fst x) = true -> exists f f', snd x = Some f /\ snd y = Some f' /\ done A cwd_dir f f') /\ (cwd_dir (fst x) = false -> snd x = snd y)) l l'.
Proof.
  revert l'. induction l as [|[n o] l IH]; intros l' ND H; cbn [NzbMerge.main] in H; [apply pair_equal_spec in H; destruct H as [<- _]; constructor|].
  assert (ND' : forall n f, In (n, Some f) l -> NoDup (map fst f)) by (intros m f I; apply (ND m); now right).
  destruct (cwd_dir n) eqn:C.
  - destruct o as [f|]; [|discriminate H]. destruct (merge_nzbs false f) as [f' [x|]] eqn:M; [discriminate H|]. destruct (main false l) as [r' x] eqn:R0. apply pair_equal_spec in H. destruct H as [<- ->].
    constructor; [|now apply IH]. cbn [fst snd]. split; [reflexivity|]. split; [|congruence]. intros _. exists f, f'. split; [reflexivity|]. split; [reflexivity|]. apply done_is; [apply (ND n); now left|exact M].
  - destruct (main false l) as [r' x] eqn:R0. apply pair_equal_spec in H. destruct H as [<- ->]. constructor; [|now apply IH]. cbn [fst snd]. split; [reflexivity|]. split; [congruence|reflexivity].
Qed.
Theorem nothing_thm py3 l : (forall n o, In (n, o) l -> cwd_dir n = false) -> main py3 l = (l, None).
Proof. induction l as [|[n o] l IH]; intros H; [reflexivity|]. cbn [NzbMerge.main]. rewrite (H n o (or_introl eq_refl)), IH; [reflexivity|]. intros m p I. apply (H m p). now right. Qed.
End Merge.
