(** ListCompareFacts: proofs about comparing lists. *)
From Verif Require Import Base BaseFacts ListCompare ListCompareSpec.

Lemma line_is l : forall acc t, ~ In 10 l -> ~ In 13 l -> readlines acc (l ++ t) = readlines (rev l ++ acc) t.
Proof.
  induction l as [|c l IH]; intros acc t H1 H2; [reflexivity|]. cbn [app readlines]. destruct (c =? 10) eqn:E1; [apply N.eqb_eq in E1; subst c; destruct H1; now left|]. destruct (c =? 13) eqn:E2; [apply N.eqb_eq in E2; subst c; destruct H2; now left|].
  rewrite IH; [|intros I; apply H1; now right|intros I; apply H2; now right]. cbn [rev]. now rewrite <- app_assoc.
Qed.
Lemma read_is ls t : written ls t -> readlines [] t = map (fun l => l ++ [10]) ls.
Proof.
  induction 1 as [|l e ls t H1 H2 He _ IH]; [reflexivity|]. rewrite line_is by assumption. rewrite app_nil_r. cbn [map]. assert (R : rev (10 :: rev l) = l ++ [10]) by (cbn [rev]; now rewrite rev_involutive). destruct He as [->|[->|(-> & Ht)]]; cbn [app readlines].
  - change (10 =? 10) with true. cbv iota. now rewrite R, IH.
  - change (13 =? 10) with false. change (13 =? 13) with true. change (10 =? 10) with true. cbv iota. now rewrite R, IH.
  - change (13 =? 10) with false. change (13 =? 13) with true. cbv iota. destruct t as [|d t]; [rewrite R; cbn [readlines] in IH; now rewrite <- IH|]. destruct (d =? 10) eqn:E; [apply N.eqb_eq in E; subst d; destruct (Ht t eq_refl)|]. now rewrite R, IH.
Qed.
Lemma mem_is x l : mem_text x l = true <-> In x l.
Proof. unfold mem_text. rewrite existsb_exists. split; [intros (y & I & E); apply teqb_eq in E; now subst y|intros I; exists x; split; [exact I|apply teqb_refl]]. Qed.
Lemma once_in l x : In x (once l) <-> In x l.
Proof. induction l as [|y l IH]; [reflexivity|]. cbn [once]. destruct (mem_text y l) eqn:M; cbn [In]; rewrite IH; [|reflexivity]. apply mem_is in M. split; [now right|intros [<-|I]; assumption]. Qed.
Lemma once_nodup l : NoDup (once l).
Proof. induction l as [|y l IH]; [constructor|]. cbn [once]. destruct (mem_text y l) eqn:M; [exact IH|]. constructor; [|exact IH]. rewrite once_in. intros I. apply mem_is in I. congruence. Qed.
Lemma no_nl l : ~ In 10 l -> filter (fun c => negb (c =? 10)) (l ++ [10]) = l.
Proof.
  intros H. rewrite filter_app. cbn. rewrite app_nil_r. induction l as [|c l IH]; [reflexivity|]. cbn [filter]. destruct (c =? 10) eqn:E; [apply N.eqb_eq in E; subst c; destruct H; now left|]. cbn [negb]. f_equal. apply IH. intros I. apply H. now right.
Qed.
Lemma plain ls t l : written ls t -> In l ls -> ~ In 10 l.
Proof. induction 1 as [|l' e ls t H1 H2 He _ IH]; [intros []|]. intros [<-|I]; [exact H1|now apply IH]. Qed.
Lemma txt_is ls t x : written ls t -> In x (read_txt t) <-> exists l, In l ls /\ x = l ++ [10].
Proof. intros W. unfold read_txt. rewrite once_in, (read_is ls t W), in_map_iff. split; intros (l & A & B); exists l; now split. Qed.
Lemma print_is ls t (p : text -> bool) : written ls t -> NoDup (print_releases (filter p (read_txt t))) /\ forall x, In x (print_releases (filter p (read_txt t))) <-> In x ls /\ p (x ++ [10]) = true.
Proof.
  intros W. unfold print_releases. split.
  - assert (F : forall x, In x (filter p (read_txt t)) -> exists l, In l ls /\ x = l ++ [10]) by (intros x I; apply filter_In in I; destruct I as [I _]; now apply (txt_is ls t x W)).
    assert (ND : NoDup (filter p (read_txt t))) by (apply NoDup_filter, once_nodup). revert F ND. generalize (filter p (read_txt t)). intros L. induction L as [|y L IH]; intros F ND; [constructor|]. inversion ND as [|? ? H1 H2]; subst. cbn [map]. constructor; [|apply IH; [intros x I; apply F; now right|exact H2]].
    intros I. apply in_map_iff in I. destruct I as (z & E & I). destruct (F y (or_introl eq_refl)) as (a & Ia & ->). destruct (F z (or_intror I)) as (b & Ib & ->). rewrite !no_nl in E by (eapply plain; eassumption). subst b. contradiction.
  - intros x. rewrite in_map_iff. split.
    + intros (y & E & I). apply filter_In in I. destruct I as [I P]. apply (txt_is ls t y W) in I. destruct I as (l & I & ->). rewrite no_nl in E by (eapply plain; eassumption). subst x. now split.
    + intros (I & P). exists (x ++ [10]). split; [apply no_nl; eapply plain; eassumption|]. apply filter_In. split; [|exact P]. apply (txt_is ls t _ W). now exists x.
Qed.
Theorem dupes_thm la lb a b : written la a -> written lb b -> NoDup (dupes a b) /\ forall x, In x (dupes a b) <-> In x la /\ In x lb.
Proof.
  intros A B. destruct (print_is la a (fun x => mem_text x (read_txt b)) A) as (N0 & I). split; [exact N0|]. intros x. unfold dupes. rewrite I, mem_is, (txt_is lb b _ B). split; intros (J & K); (split; [exact J|]); [|now exists x]. destruct K as (l & K & E). apply app_inj_tail in E. destruct E as [-> _]. exact K.
Qed.
Theorem uniques_thm la lb a b : written la a -> written lb b -> NoDup (uniques a b) /\ forall x, In x (uniques a b) <-> In x lb /\ ~ In x la.
Proof.
  intros A B. destruct (print_is lb b (fun x => negb (mem_text x (read_txt a))) B) as (N0 & I). split; [exact N0|]. intros x. unfold uniques. rewrite I, Bool.negb_true_iff, <- Bool.not_true_iff_false, mem_is, (txt_is la a _ A). split; intros (J & K); (split; [exact J|]); intros L; apply K; [now exists x|]. destruct L as (l & L & E). apply app_inj_tail in E. destruct E as [-> _]. exact L.
Qed.
