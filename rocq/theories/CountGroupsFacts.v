(** CountGroupsFacts: proofs about counting groups and series. *)
From Coq Require Import Permutation Sorted.
From Verif Require Import Base BaseFacts SrrFacts MoveScene MoveSceneSpec MoveSceneFacts CountGroups CountGroupsSpec.

Lemma tle_total a : forall b, tle a b = false -> tle b a = true.
Proof. induction a as [|x a IH]; intros [|y b] H; try discriminate H; try reflexivity. cbn [tle] in *. rewrite N.eqb_sym. destruct (x =? y) eqn:E; [now apply IH|]. apply N.eqb_neq in E. apply N.ltb_ge in H. apply N.ltb_lt. lia. Qed.
Lemma tle_trans a : forall b c, tle a b = true -> tle b c = true -> tle a c = true.
Proof.
  induction a as [|x a IH]; intros [|y b] [|z c] H1 H2; try discriminate; try reflexivity. cbn [tle] in *. destruct (x =? y) eqn:E1.
  - apply N.eqb_eq in E1. subst y. destruct (x =? z); [now apply (IH b)|exact H2].
  - apply N.ltb_lt in H1. destruct (y =? z) eqn:E2.
    + apply N.eqb_eq in E2. subst z. rewrite E1. now apply N.ltb_lt.
    + apply N.ltb_lt in H2. destruct (x =? z) eqn:E3; [apply N.eqb_eq in E3; lia|]. apply N.ltb_lt. lia.
Qed.
Lemma tle_antisym a : forall b, tle a b = true -> tle b a = true -> a = b.
Proof.
  induction a as [|x a IH]; intros [|y b] H1 H2; try discriminate; try reflexivity. cbn [tle] in *. rewrite N.eqb_sym in H2. destruct (x =? y) eqn:E.
  - apply N.eqb_eq in E. subst y. f_equal. now apply IH.
  - apply N.ltb_lt in H1. apply N.ltb_lt in H2. lia.
Qed.
Section Sort.
Context {A : Type} (le : A -> A -> bool).
Hypothesis total : forall a b, le a b = false -> le b a = true.
Hypothesis trans : forall a b c, le a b = true -> le b c = true -> le a c = true.
Lemma insert_perm x l : Permutation (x :: l) (insert le x l).
Proof. induction l as [|y l IH]; [reflexivity|]. cbn [insert]. destruct (le x y); [reflexivity|]. rewrite perm_swap. now constructor. Qed.
Lemma sorted_perm l : Permutation l (sorted le l).
Proof. induction l as [|x l IH]; [reflexivity|]. cbn [sorted fold_right]. fold (sorted le l). rewrite <- insert_perm. now constructor. Qed.
Lemma insert_sorted x l : StronglySorted (fun a b => le a b = true) l -> StronglySorted (fun a b => le a b = true) (insert le x l).
Proof.
  induction l as [|y l IH]; intros H; [repeat constructor|]. cbn [insert]. inversion H as [|? ? H1 H2]; subst. destruct (le x y) eqn:E.
  - constructor; [exact H|]. constructor; [exact E|]. rewrite Forall_forall in *. intros z Hz. exact (trans _ _ _ E (H2 z Hz)).
  - constructor; [now apply IH|]. rewrite <- insert_perm. constructor; [now apply total|exact H2].
Qed.
Lemma sorted_sorted l : StronglySorted (fun a b => le a b = true) (sorted le l).
Proof. induction l as [|x l IH]; [constructor|]. cbn [sorted fold_right]. now apply insert_sorted. Qed.
End Sort.

Lemma cle_total r a b : cle r a b = false -> cle r b a = true.
Proof. unfold cle. destruct r; rewrite N.leb_gt, N.leb_le; lia. Qed.
Lemma cle_trans r a b c : cle r a b = true -> cle r b c = true -> cle r a c = true.
Proof. unfold cle. destruct r; rewrite !N.leb_le; lia. Qed.
Lemma order_is r l : in_order r (sorted (cle r) l).
Proof.
  intros a x b y c E. pose proof (sorted_sorted (cle r) (cle_total r) (cle_trans r) l) as S0. rewrite E in S0. clear E. induction a as [|z a IH]; cbn [app] in S0; inversion S0 as [|? ? H1 H2]; subst; [|now apply IH].
  rewrite Forall_forall in H2. assert (K : cle r x y = true) by (apply H2; apply in_or_app; right; now left). unfold cle in K. destruct r; now apply N.leb_le in K.
Qed.
(** the dictionary *)
Lemma set_keys k n d j : In j (map fst (set_key k n d)) <-> j = k \/ In j (map fst d).
Proof.
  induction d as [|[i m] d IH]; cbn [set_key map fst In]; [intuition congruence|]. destruct (teqb i k) eqn:E; cbn [map fst In]; [apply teqb_eq in E; subst i; intuition congruence|]. rewrite IH. intuition congruence.
Qed.
Lemma set_nodup k n d : NoDup (map fst d) -> NoDup (map fst (set_key k n d)).
Proof.
  induction d as [|[i m] d IH]; cbn [set_key map fst]; intros H; [repeat constructor; intros []|]. inversion H as [|? ? H1 H2]; subst. destruct (teqb i k) eqn:E; cbn [map fst].
  - apply teqb_eq in E. subst i. now constructor.
  - constructor; [|now apply IH]. rewrite set_keys. intros [->|X]; [rewrite teqb_refl in E; discriminate E|contradiction].
Qed.
Lemma set_in k n d j m : NoDup (map fst d) -> In (j, m) (set_key k n d) <-> (j = k /\ m = n) \/ (j <> k /\ In (j, m) d).
Proof.
  induction d as [|[i o] d IH]; cbn [set_key map fst]; intros H.
  - cbn [In]. rewrite pair_equal_spec. intuition congruence.
  - inversion H as [|? ? H1 H2]; subst. destruct (teqb i k) eqn:E; cbn [In]; rewrite !pair_equal_spec.
    + apply teqb_eq in E. subst i. split; [intros [(-> & ->)|I]; [now left|right; split; [intros ->; apply H1; now apply (in_map fst) in I|now right]]|]. intros [(-> & ->)|(X & [(Y & _)|I])]; [now left|congruence|now right].
    + assert (NK : i <> k) by (intros ->; rewrite teqb_refl in E; discriminate E). rewrite (IH H2). split; [intros [(-> & ->)|[X|(X & I)]]; [right; split; [congruence|now left]|now left|right; split; [exact X|now right]]|]. intros [X|(X & [(-> & ->)|I])]; [right; now left|now left|right; right; now split].
Qed.
Lemma dict_is ps : NoDup (map fst (fold_left (fun d x => set_key (fst x) (snd x) d) ps [])) /\
  forall k n, In (k, n) (fold_left (fun d x => set_key (fst x) (snd x) d) ps []) <-> exists a b, ps = a ++ (k, n) :: b /\ ~ In k (map fst b).
Proof.
  induction ps as [|[j m] ps (ND & IH)] using rev_ind.
  - split; [constructor|]. intros k n. split; [intros []|]. intros (a & b & E & _). destruct a; discriminate E.
  - rewrite fold_left_app. cbn [fold_left fst snd]. split; [now apply set_nodup|]. intros k n. rewrite set_in by exact ND. rewrite IH. split.
    + intros [(-> & ->)|(X & a & b & -> & N0)]; [exists ps, []; split; [reflexivity|intros []]|]. exists a, (b ++ [(j, m)]). split; [now rewrite <- app_assoc|]. rewrite map_app. intros I. apply in_app_or in I. destruct I as [I|[I|[]]]; [contradiction|cbn [fst] in I; congruence].
    + intros (a & b & E & N0). destruct b as [|z b _] using rev_ind.
      * apply app_inj_tail in E. destruct E as [_ E]. apply pair_equal_spec in E. left. destruct E; split; congruence.
      * rewrite app_comm_cons, app_assoc in E. apply app_inj_tail in E. destruct E as [-> <-]. right. rewrite map_app in N0. split; [intros ->; apply N0; apply in_or_app; right; now left|]. exists a, b. split; [reflexivity|]. intros I. apply N0. apply in_or_app. now left.
Qed.
(** runs *)
Definition expand (ps : list (text * N)) : list text := flat_map (fun x => repeat (fst x) (N.to_nat (snd x))) ps.
Lemma runs_expand l : expand (runs l) = l.
Proof.
  induction l as [|x r IH]; [reflexivity|]. cbn [runs]. destruct (runs r) as [|[y n] t]; [now rewrite <- IH|]. destruct (teqb x y) eqn:E.
  - apply teqb_eq in E. subst y. rewrite <- IH. unfold expand. cbn [flat_map fst snd]. replace (N.to_nat (n + 1)) with (S (N.to_nat n)) by lia. reflexivity.
  - rewrite <- IH. reflexivity.
Qed.
Lemma runs_pos l k n : In (k, n) (runs l) -> 0 < n.
Proof.
  revert k n. induction l as [|x r IH]; intros k n; [intros []|]. cbn [runs]. destruct (runs r) as [|[y m] t].
  - intros [E|[]]. apply pair_equal_spec in E. lia.
  - destruct (teqb x y); intros [E|I]; try (apply pair_equal_spec in E; lia); apply (IH k n); [now right|exact I].
Qed.
Lemma runs_keys l k : In k (map fst (runs l)) <-> In k l.
Proof.
  induction l as [|x r IH]; [reflexivity|]. cbn [runs In]. rewrite <- IH. destruct (runs r) as [|[y m] t]; [reflexivity|]. destruct (teqb x y) eqn:E; [apply teqb_eq in E; subst y; cbn [map fst In]; intuition congruence|reflexivity].
Qed.
Lemma runs_apart l : forall a k n j m b, runs l = a ++ (k, n) :: (j, m) :: b -> k <> j.
Proof.
  induction l as [|x r IH]; intros a k n j m b H; [destruct a; discriminate H|]. cbn [runs] in H. destruct (runs r) as [|[y o] t] eqn:R; [destruct a as [|? [|? ?]]; discriminate H|]. destruct (teqb x y) eqn:E.
  - destruct a as [|z a]; cbn [app] in H.
    + injection H as H1 H2 H3. subst. apply (IH [] k o j m b). reflexivity.
    + injection H as H1 H2. subst. apply (IH ((y, o) :: a) k n j m b). reflexivity.
  - destruct a as [|z a]; cbn [app] in H.
    + injection H as H1 H2 H3 H4 H5. subst. intros ->. rewrite teqb_refl in E. discriminate E.
    + injection H as H1 H2. apply (IH a k n j m b). exact H2.
Qed.
(** the last run *)
Fixpoint took (k : text) (l : list text) : N := match l with [] => 0 | x :: r => if teqb x k then 1 + took k r else 0 end.
Fixpoint drop_ (k : text) (l : list text) : list text := match l with [] => [] | x :: r => if teqb x k then l else drop_ k r end.
Lemma took_is k n a : (forall r, a <> k :: r) -> took k (repeat k n ++ a) = N.of_nat n.
Proof.
  intros H. induction n as [|n IH]; cbn [repeat app took].
  - destruct a as [|x a]; [reflexivity|]. cbn [took]. destruct (teqb x k) eqn:E; [apply teqb_eq in E; subst x; destruct (H a eq_refl)|reflexivity].
  - rewrite teqb_refl, IH. lia.
Qed.
Lemma drop_is k b l : ~ In k b -> drop_ k (b ++ l) = drop_ k l.
Proof. induction b as [|x b IH]; intros H; [reflexivity|]. cbn [app drop_]. destruct (teqb x k) eqn:E; [apply teqb_eq in E; subst x; destruct H; now left|apply IH; intros I; apply H; now right]. Qed.
Lemma rev_rep (k : text) n : rev (repeat k n) = repeat k n.
Proof. induction n as [|n IH]; [reflexivity|]. cbn [repeat rev]. rewrite IH. now rewrite <- repeat_cons. Qed.
Lemma last_fun l k n : last_run l k n -> n = took k (drop_ k (rev l)).
Proof.
  intros (P & a & b & -> & Nb & Na). rewrite !rev_app_distr, rev_rep, <- app_assoc, drop_is by (now rewrite <- in_rev). destruct (N.to_nat n) as [|m] eqn:E; [lia|].
  assert (D : drop_ k (repeat k (S m) ++ rev a) = repeat k (S m) ++ rev a) by (cbn [repeat app drop_]; now rewrite teqb_refl). rewrite D, took_is; [lia|]. intros r X. apply (Na (rev r)). rewrite <- (rev_involutive a), X. reflexivity.
Qed.
Theorem grouped_is l k n : In (k, n) (grouped l) <-> last_run l k n.
Proof.
  assert (F : forall k n, In (k, n) (grouped l) -> last_run l k n).
  { clear k n. intros k n I. apply (dict_is (runs l)) in I. destruct I as (a & b & E & N0). split; [apply (runs_pos l k n); rewrite E; apply in_or_app; right; now left|]. exists (expand a), (expand b). split; [|split].
    - rewrite <- (runs_expand l), E. unfold expand. rewrite flat_map_app. reflexivity.
    - unfold expand. intros I. apply in_flat_map in I. destruct I as ((j, m) & I & J). apply repeat_spec in J. cbn [fst] in J. subst j. apply N0. now apply (in_map fst) in I.
    - intros a' X. destruct a as [|[j m] a _] using rev_ind; [destruct a'; discriminate X|]. rewrite <- app_assoc in E. cbn [app] in E. pose proof (runs_apart l a j m k n b E) as NJ. assert (Pm : 0 < m) by (apply (runs_pos l j m); rewrite E; apply in_or_app; right; now left).
      unfold expand in X. rewrite flat_map_app in X. cbn [flat_map fst snd] in X. rewrite app_nil_r in X. destruct (N.to_nat m) as [|m'] eqn:Em; [lia|]. change (repeat j (S m')) with (j :: repeat j m') in X. rewrite repeat_cons, app_assoc in X. apply app_inj_tail in X. destruct X as [_ X]. congruence. }
  split; [apply F|]. intros L. assert (K : In k (map fst (grouped l))).
  { assert (I : In k l) by (destruct L as (P & a & b & -> & _); apply in_or_app; right; apply in_or_app; left; destruct (N.to_nat n) eqn:E; [lia|now left]). apply runs_keys in I. unfold grouped. revert I. generalize (runs l). intros ps. induction ps as [|[j m] ps IH] using rev_ind; [intros []|].
    rewrite fold_left_app, map_app. cbn [fold_left fst snd]. rewrite set_keys. intros I. apply in_app_or in I. destruct I as [I|[I|[]]]; [right; now apply IH|left; cbn [fst] in I; congruence]. }
  apply in_map_iff in K. destruct K as ((k' & m) & E & I). cbn [fst] in E. subst k'. pose proof (last_fun l k n L). pose proof (last_fun l k m (F k m I)). congruence.
Qed.
Lemma count_app a b k : count (a ++ b) k = count a k + count b k.
Proof. unfold count. rewrite count_occ_app. apply Nnat.Nat2N.inj_add. Qed.
Lemma count_none l k : ~ In k l -> count l k = 0.
Proof. intros H. unfold count. apply (count_occ_not_In (list_eq_dec N.eq_dec)) in H. unfold text in *. now rewrite H. Qed.
Lemma count_rep k n : count (repeat k n) k = N.of_nat n.
Proof. unfold count. f_equal. induction n as [|n IH]; [reflexivity|]. cbn [repeat]. rewrite count_occ_cons_eq by reflexivity. f_equal. exact IH. Qed.
Lemma count_pos l k : 0 < count l k <-> In k l.
Proof. unfold count. rewrite (count_occ_In (list_eq_dec N.eq_dec)). unfold text in *. generalize (count_occ (list_eq_dec N.eq_dec) l k). intros m. lia. Qed.
Lemma together_last l k n : together l k -> last_run l k n <-> 0 < n /\ n = count l k.
Proof.
  intros (a & m & b & -> & Na & Nb). assert (C : count (a ++ repeat k m ++ b) k = N.of_nat m) by (rewrite !count_app, count_rep, !count_none by assumption; lia).
  assert (R : 0 < N.of_nat m -> last_run (a ++ repeat k m ++ b) k (N.of_nat m)).
  { intros P. split; [exact P|]. exists a, b. rewrite Nnat.Nat2N.id. split; [reflexivity|]. split; [exact Nb|]. intros a' ->. apply Na. apply in_or_app. right. now left. }
  rewrite C. split.
  - intros L. split; [apply L|]. destruct m as [|m].
    + exfalso. destruct L as (P & a0 & b0 & E & _). assert (I : In k (a ++ repeat k 0 ++ b)) by (rewrite E; apply in_or_app; right; apply in_or_app; left; destruct (N.to_nat n) eqn:X; [lia|now left]). cbn [repeat app] in I. apply in_app_or in I. tauto.
    + rewrite (last_fun _ _ _ L). symmetry. apply last_fun. apply R. lia.
  - intros (P & ->). now apply R.
Qed.
Lemma sorted_together l k : StronglySorted (fun a b => tle a b = true) l -> together l k.
Proof.
  induction 1 as [|x l S0 (a & n & b & -> & Na & Nb) F]; [exists [], O, []; split; [reflexivity|split; intros []]|]. destruct (teqb x k) eqn:E.
  - apply teqb_eq in E. subst x. destruct n as [|n].
    + exists [], 1%nat, (a ++ b). split; [reflexivity|]. split; [intros []|]. intros I. apply in_app_or in I. tauto.
    + destruct a as [|y a]; [exists [], (S (S n)), b; split; [reflexivity|split; [intros []|exact Nb]]|]. exfalso. apply Na. left. rewrite Forall_forall in F. apply tle_antisym; [|apply F; now left].
      cbn [app] in S0. inversion S0 as [|? ? _ F']; subst. rewrite Forall_forall in F'. apply F'. apply in_or_app. right. now left.
  - exists (x :: a), n, b. split; [reflexivity|]. split; [|exact Nb]. intros [->|I]; [rewrite teqb_refl in E; discriminate E|contradiction].
Qed.
Lemma groups_is names gs : groups_of names gs <-> gs = map last_part names.
Proof.
  unfold groups_of. split.
  - induction 1 as [|x y l l' H _ IH]; [reflexivity|]. cbn [map]. apply last_is in H. congruence.
  - intros ->. induction names; constructor; [now apply last_is|assumption].
Qed.
Lemma nodup_sorted r (l : list (text * N)) : NoDup (map fst l) -> NoDup (map fst (sorted (cle r) l)).
Proof. intros H. apply (Permutation_NoDup (l := map fst l)); [|exact H]. apply Permutation_map. apply sorted_perm. Qed.
Theorem count_thm names gs r : groups_of names gs ->
  NoDup (map fst (start_count names r)) /\ in_order r (start_count names r) /\ forall k n, In (k, n) (start_count names r) <-> In k gs /\ n = count gs k.
Proof.
  intros G. apply groups_is in G. subst gs. unfold start_count. split; [apply nodup_sorted; apply (dict_is (runs (sorted tle (map last_part names))))|]. split; [apply order_is|]. intros k n.
  assert (P : forall x, In x (sorted (cle r) (grouped (sorted tle (map last_part names)))) <-> In x (grouped (sorted tle (map last_part names)))) by (intros x; split; apply Permutation_in; [apply Permutation_sym|]; apply sorted_perm).
  rewrite P, grouped_is, together_last by (apply sorted_together; apply sorted_sorted; [exact tle_total|exact tle_trans]).
  assert (C : count (sorted tle (map last_part names)) k = count (map last_part names) k).
  { unfold count. f_equal. apply Permutation_count_occ. apply Permutation_sym, sorted_perm. }
  rewrite C, <- count_pos. split; intros (A & B); subst n; split; auto.
Qed.
Theorem series_thm l : NoDup (map fst (series l)) /\ in_order true (series l) /\ forall k n, In (k, n) (series l) <-> last_run l k n.
Proof.
  unfold series. split; [apply nodup_sorted; apply (dict_is (runs l))|]. split; [apply order_is|]. intros k n. rewrite <- grouped_is. split; apply Permutation_in; [apply Permutation_sym|]; apply sorted_perm.
Qed.
Theorem series_count l k n : together l k -> In (k, n) (series l) <-> In k l /\ n = count l k.
Proof. intros T. destruct (series_thm l) as (_ & _ & S0). rewrite S0, (together_last l k n T), <- count_pos. split; intros (A & B); subst n; split; auto. Qed.
