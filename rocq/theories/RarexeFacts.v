(** RarexeFacts: executables, thread counts and the name of the application. *)
From Coq Require Import Sorted Permutation.
From Verif Require Import Base BaseFacts VolName Rar Srr SrrFacts Rarexe RarexeSpec.

(** ** Order of dates *)
Lemma text_lt_spec (a b : text) : text_lt a b = true <-> earlier a b.
Proof.
  revert b. induction a as [|x a IH]; intros [|y b]; cbn [text_lt].
  - split; [discriminate|intros H; inversion H].
  - split; [constructor|reflexivity].
  - split; [discriminate|intros H; inversion H].
  - rewrite orb_true_iff, andb_true_iff, IH. split.
    + intros [H|[H1 H2]]; [apply earlier_here; lia|]. apply N.eqb_eq in H1 as ->. now apply earlier_next.
    + intros H. inversion H; subst; [left; lia|right; split; [apply N.eqb_refl|assumption]].
Qed.
Lemma lt_irrefl a : text_lt a a = false.
Proof. induction a as [|x a IH]; [reflexivity|]. cbn [text_lt]. rewrite IH. lia. Qed.
Lemma lt_total (a b c : text) : text_lt a b = false -> text_lt b c = false -> text_lt a c = false.
Proof.
  revert b c. induction a as [|x a IH]; intros [|y b] [|z c] H1 H2; cbn [text_lt] in *; try reflexivity; try discriminate.
  apply orb_false_iff in H1 as [A1 A2]. apply orb_false_iff in H2 as [B1 B2]. apply orb_false_iff. split; [lia|].
  destruct (N.eqb_spec x z) as [->|]; [|reflexivity]. cbn [andb]. assert (y = z) by lia. subst y. rewrite N.eqb_refl in A2, B2. cbn [andb] in *. now apply (IH b).
Qed.
Lemma lt_asym (a b : text) : text_lt a b = true -> text_lt b a = false.
Proof.
  intros H. destruct (text_lt b a) eqn:E; [|reflexivity]. revert b H E. induction a as [|x a IH]; intros [|y b] H E; cbn [text_lt] in *; try discriminate.
  apply orb_true_iff in H as [H|H]; apply orb_true_iff in E as [E|E]; try lia. apply andb_true_iff in H as [_ H]. apply andb_true_iff in E as [_ E]. now apply (IH b).
Qed.
Lemma not_earlier a b : ~ earlier a b <-> text_lt a b = false.
Proof. rewrite <- text_lt_spec. destruct (text_lt a b); intuition congruence. Qed.

(** ** Names *)
Lemma digit_spec c : digit c = true <-> digit_c c. Proof. unfold digit, digit_c. lia. Qed.
Lemma app_inj_len {A} (u v a b : list A) : length u = length a -> u ++ v = a ++ b -> u = a /\ v = b.
Proof.
  revert a. induction u as [|x u IH]; intros [|y a] Hl H; try discriminate Hl; [auto|]. cbn in *. injection H as -> H. injection Hl as Hl. destruct (IH a Hl H) as [-> ->]. auto.
Qed.
Lemma digits_spec n t a b : all_digits n t = Some (a, b) <-> t = a ++ b /\ length a = n /\ Forall digit_c a.
Proof.
  revert t a b. induction n as [|n IH]; intros t a b; cbn [all_digits].
  - split; [intros H; injection H as <- <-; repeat split; constructor|]. intros (-> & H & _). destruct a; [reflexivity|discriminate H].
  - destruct t as [|c t]; [split; [discriminate|]; intros (H1 & H2 & _); destruct a; [discriminate H2|discriminate H1]|].
    destruct (digit c) eqn:E.
    + destruct (all_digits n t) as [[u v]|] eqn:Ed.
      * apply IH in Ed as (-> & Hl & Hf). split.
        -- intros H; injection H as <- <-. split; [reflexivity|]. split; [cbn; now f_equal|]. constructor; [now apply digit_spec|exact Hf].
        -- intros (H1 & H2 & H3). destruct a as [|x a]; [discriminate H2|]. cbn [app length] in *. injection H1 as <- H1. injection H2 as H2.
           destruct (app_inj_len u v a b) as [-> ->]; [congruence|exact H1|reflexivity].
      * split; [discriminate|]. intros (H1 & H2 & H3). destruct a as [|x a]; [discriminate H2|]. cbn [app length] in *. injection H1 as <- H1. injection H2 as H2. inversion H3; subst.
        assert (X : all_digits (length a) (a ++ b) = Some (a, b)) by (apply IH; auto). congruence.
    + split; [discriminate|]. intros (H1 & H2 & H3). destruct a as [|x a]; [discriminate H2|]. cbn [app] in H1. injection H1 as <- H1. inversion H3 as [|? ? Hd]; subst. apply digit_spec in Hd. congruence.
Qed.
Lemma lit_spec p t r : lit p t = Some r <-> t = p ++ r.
Proof.
  unfold lit. revert t. induction p as [|x p IH]; intros t.
  - cbn. split; [intros H; now injection H|intros ->; reflexivity].
  - destruct t as [|y t]; [split; discriminate|]. cbn [starts_with skipn length app]. destruct (N.eqb_spec x y) as [->|Hn]; cbn [andb].
    + rewrite IH. split; [intros ->; reflexivity|intros H; now injection H].
    + split; [discriminate|intros H; injection H; congruence].
Qed.
Lemma obind_spec {A B} (a : option A) (f : A -> option B) y : obind a f = Some y <-> exists x, a = Some x /\ f x = Some y.
Proof. destruct a; cbn; split; [eauto|intros (x & E & H); now injection E as ->|discriminate|intros (x & E & _); discriminate E]. Qed.
Lemma parse_spec f e : parse_exe f = Some e <-> exe_file f e.
Proof.
  unfold parse_exe. split.
  - intros H. apply obind_spec in H as ([y t0] & H0 & H). apply obind_spec in H as (t1 & H1 & H). apply obind_spec in H as ([m t2] & H2 & H). apply obind_spec in H as (t3 & H3 & H).
    apply obind_spec in H as ([d t4] & H4 & H). apply obind_spec in H as (t5 & H5 & H). apply obind_spec in H as ([v t6] & H6 & H).
    apply digits_spec in H0 as (H0 & L0 & F0). apply lit_spec in H1. apply digits_spec in H2 as (H2 & L2 & F2). apply lit_spec in H3. apply digits_spec in H4 as (H4 & L4 & F4). apply lit_spec in H5. apply digits_spec in H6 as (H6 & L6 & F6).
    destruct y as [|y1 [|y2 [|y3 [|y4 [|]]]]]; try discriminate L0. destruct m as [|m1 [|m2 [|]]]; try discriminate L2. destruct d as [|d1 [|d2 [|]]]; try discriminate L4. destruct v as [|a [|b [|c [|]]]]; try discriminate L6.
    injection H as <-. exists y1, y2, y3, y4, m1, m2, d1, d2, a, b, c, t6. split.
    + change (Forall digit_c ([y1; y2; y3; y4] ++ [m1; m2] ++ [d1; d2] ++ [a; b; c])). apply Forall_app. split; [exact F0|]. apply Forall_app. split; [exact F2|]. apply Forall_app. now split.
    + split; [now rewrite H0, H1, H2, H3, H4, H5, H6|reflexivity].
  - intros (y1 & y2 & y3 & y4 & m1 & m2 & d1 & d2 & a & b & c & r & F & -> & ->).
    change [y1; y2; y3; y4; m1; m2; d1; d2; a; b; c] with ([y1; y2; y3; y4] ++ [m1; m2] ++ [d1; d2] ++ [a; b; c]) in F.
    apply Forall_app in F as [F0 F]. apply Forall_app in F as [F2 F]. apply Forall_app in F as [F4 F6].
    apply obind_spec. exists ([y1; y2; y3; y4], [45; m1; m2; 45; d1; d2] ++ str "_rar" ++ [a; b; c] ++ r). split; [apply digits_spec; auto|].
    apply obind_spec. exists ([m1; m2; 45; d1; d2] ++ str "_rar" ++ [a; b; c] ++ r). split; [now apply lit_spec|].
    apply obind_spec. exists ([m1; m2], [45; d1; d2] ++ str "_rar" ++ [a; b; c] ++ r). split; [apply digits_spec; auto|].
    apply obind_spec. exists ([d1; d2] ++ str "_rar" ++ [a; b; c] ++ r). split; [now apply lit_spec|].
    apply obind_spec. exists ([d1; d2], str "_rar" ++ [a; b; c] ++ r). split; [apply digits_spec; auto|].
    apply obind_spec. exists ([a; b; c] ++ r). split; [now apply lit_spec|].
    apply obind_spec. exists ([a; b; c], r). split; [apply digits_spec; auto|]. reflexivity.
Qed.
Lemma load_files fs es : exe_files fs es -> flat_map (fun f => match parse_exe f with Some e => [e] | None => [] end) fs = es.
Proof.
  induction 1 as [|f e fs es He H IH|f fs es Hn H IH]; [reflexivity| |]; cbn [flat_map]; rewrite IH.
  - apply parse_spec in He. now rewrite He.
  - destruct (parse_exe f) as [e|] eqn:E; [|reflexivity]. apply parse_spec in E. destruct Hn. now exists e.
Qed.

(** ** Sorting *)
Definition le_exe (x y : exe) : Prop := text_lt (x_date y) (x_date x) = false.
Lemma insert_perm x l : Permutation (insert_exe x l) (x :: l).
Proof.
  induction l as [|y l IH]; cbn [insert_exe]; [apply Permutation_refl|]. destruct (text_lt _ _); [|apply Permutation_refl]. eapply perm_trans; [apply perm_skip; exact IH|apply perm_swap].
Qed.
Lemma sort_perm l : Permutation (sort_exes l) l.
Proof. induction l as [|x l IH]; [constructor|]. cbn [sort_exes fold_right]. eapply perm_trans; [apply insert_perm|]. now apply perm_skip. Qed.
Lemma insert_sorted x l : StronglySorted le_exe l -> StronglySorted le_exe (insert_exe x l).
Proof.
  induction 1 as [|y l Hs IH Hf]; cbn [insert_exe]; [constructor; constructor|]. destruct (text_lt (x_date y) (x_date x)) eqn:E.
  - constructor; [exact IH|]. eapply Permutation_Forall; [apply Permutation_sym, insert_perm|]. constructor; [|exact Hf]. now apply lt_asym.
  - constructor; [constructor; assumption|]. constructor; [exact E|]. eapply Forall_impl; [|exact Hf]. intros z Hz. unfold le_exe in *. eapply lt_total; [exact Hz|exact E].
Qed.
Lemma sort_sorted l : StronglySorted le_exe (sort_exes l).
Proof. induction l as [|x l IH]; [constructor|]. now apply insert_sorted. Qed.
Lemma filter_sorted {A} (R : A -> A -> Prop) f l : StronglySorted R l -> StronglySorted R (filter f l).
Proof.
  induction 1 as [|x l Hs IH Hf]; [constructor|]. cbn [filter]. destruct (f x); [|exact IH]. constructor; [exact IH|]. rewrite Forall_forall in *. intros y Hy. apply filter_In in Hy as [Hy _]. now apply Hf.
Qed.
Lemma rev_sorted {A} (R : A -> A -> Prop) l : StronglySorted R l -> StronglySorted (fun x y => R y x) (rev l).
Proof.
  induction 1 as [|x l Hs IH Hf]; [constructor|]. cbn [rev].
  assert (G : forall a, StronglySorted (fun x y => R y x) a -> Forall (fun y => R x y) a -> StronglySorted (fun x y => R y x) (a ++ [x])).
  { clear. induction 1 as [|y a Hs IH Hf]; intros H; [constructor; constructor|]. inversion H; subst. cbn [app]. constructor; [now apply IH|]. apply Forall_app. split; [exact Hf|]. now constructor. }
  apply G; [exact IH|]. apply Forall_rev. exact Hf.
Qed.
Lemma split_perm {A} (f : A -> bool) l : Permutation (filter f l ++ filter (fun x => negb (f x)) l) l.
Proof.
  induction l as [|x l IH]; [constructor|]. cbn [filter]. destruct (f x); cbn [negb app]; [now apply perm_skip|]. eapply perm_trans; [apply Permutation_sym, Permutation_middle|]. now apply perm_skip.
Qed.
Theorem exes_order files es date : exe_files files es ->
  Permutation (get_exes (load_exes files) None date) es /\ good_order date (get_exes (load_exes files) None date).
Proof.
  intros H. unfold load_exes. rewrite (load_files _ _ H). set (L := sort_exes es). pose proof (sort_perm es : Permutation L es) as P. pose proof (sort_sorted es : StronglySorted le_exe L) as S.
  unfold get_exes. set (B := filter (fun e => text_lt (x_date e) date) L). set (A := filter (fun e => negb (text_lt (x_date e) date)) L).
  assert (PB : Permutation (B ++ A) L) by apply split_perm.
  assert (SB : StronglySorted (fun x y => ~ earlier (x_date x) (x_date y)) (rev B)).
  { eapply StronglySorted_ind with (P := fun l => StronglySorted (fun x y => ~ earlier (x_date x) (x_date y)) l); [constructor| |apply (rev_sorted le_exe); apply filter_sorted; exact S].
    intros x l _ IH Hf. constructor; [exact IH|]. eapply Forall_impl; [|exact Hf]. intros y Hy. now apply not_earlier. }
  assert (SA : StronglySorted (fun x y => ~ earlier (x_date y) (x_date x)) A).
  { eapply StronglySorted_ind with (P := fun l => StronglySorted (fun x y => ~ earlier (x_date y) (x_date x)) l); [constructor| |apply filter_sorted; exact S].
    intros x l _ IH Hf. constructor; [exact IH|]. eapply Forall_impl; [|exact Hf]. intros y Hy. now apply not_earlier. }
  assert (FB : Forall (fun e => earlier (x_date e) date) (rev B)).
  { apply Forall_rev. apply Forall_forall. intros e He. apply filter_In in He as [_ He]. now apply text_lt_spec. }
  assert (FA : Forall (fun e => ~ earlier (x_date e) date) A).
  { apply Forall_forall. intros e He. apply filter_In in He as [_ He]. apply not_earlier. now destruct (text_lt _ _). }
  clearbody B A. destruct A as [|a A]; cbn [app].
  - split.
    + rewrite app_nil_r in PB. eapply perm_trans; [apply Permutation_sym, Permutation_rev|]. eapply perm_trans; [exact PB|exact P].
    + exists [], (rev B), []. cbn [app length]. rewrite app_nil_r. repeat split; try assumption; try constructor. lia.
  - split.
    + eapply perm_trans; [|exact P]. eapply perm_trans; [|exact PB].
      eapply perm_trans; [apply (Permutation_middle (rev B) A a)|]. apply Permutation_app; [apply Permutation_sym, Permutation_rev|apply Permutation_refl].
    + exists [a], (rev B), A. repeat split; try assumption; [cbn; lia|discriminate].
Qed.
Theorem exes_previous exes p date : get_exes exes (Some p) date = p :: get_exes exes None date.
Proof. unfold get_exes. destruct (filter _ exes); [reflexivity|]. destruct (filter _ exes); reflexivity. Qed.
Definition ex_files : list text := [str "2006-03-29_rar360b1.exe"; str "readme.txt"; str "2012-06-09_rar420.exe"; str "2001-05-14_rar280.exe"].
Definition ex1 := mkExe (str "2006-03-29_rar360b1.exe") (str "2006-03-29") 3 60.
Definition ex2 := mkExe (str "2012-06-09_rar420.exe") (str "2012-06-09") 4 20.
Definition ex3 := mkExe (str "2001-05-14_rar280.exe") (str "2001-05-14") 2 80.
Lemma ex_ok : exe_files ex_files [ex1; ex2; ex3].
Proof.
  apply ef_exe; [now apply parse_spec|]. apply ef_other; [intros [e H]; apply parse_spec in H; discriminate H|]. apply ef_exe; [now apply parse_spec|]. apply ef_exe; [now apply parse_spec|]. constructor.
Qed.
Lemma ex_order : get_exes (load_exes ex_files) None (str "2006-01-01") = [ex1; ex3; ex2]. Proof. vm_compute. reflexivity. Qed.
Lemma previous_twice : exists files es p date, exe_files files es /\ In p es /\ ~ Permutation (get_exes (load_exes files) (Some p) date) es.
Proof.
  exists ex_files, [ex1; ex2; ex3], ex1, (str "2006-01-01"). split; [exact ex_ok|]. split; [now left|]. intros H. apply Permutation_length in H. rewrite exes_previous in H. rewrite ex_order in H. discriminate H.
Qed.

(** ** Thread counts *)
Lemma old_spec e : x_minor e < 100 -> old_mt e = (x_major e * 100 + x_minor e <? 420).
Proof. intros H. unfold old_mt. destruct (N.ltb_spec (x_major e) 4), (N.eqb_spec (x_major e) 4), (N.ltb_spec (x_minor e) 20); cbn; lia. Qed.
Definition lo (s : mt) e := if (0 <? mt_min s)%Z then mt_min s else min_threads e.
Definition hi (s : mt) e := if (0 <? mt_max s)%Z then mt_max s else max_threads e.
Lemma range_spec s e n : x_minor e < 100 -> in_range (lo s e) (hi s e) (max_threads e) n = true <-> takes e n /\ limits s n.
Proof.
  intros H. unfold in_range, takes, limits, lo, hi, max_threads, min_threads. rewrite <- (old_spec e H).
  destruct (old_mt e), (Z.ltb_spec 0 (mt_min s)), (Z.ltb_spec 0 (mt_max s)); rewrite !andb_true_iff; lia.
Qed.
Lemma tries_more fuel : forall s e t l, tries fuel s e t = Some l -> forall more, tries (fuel + more) s e t = Some l.
Proof.
  induction fuel as [|fuel IH]; intros s e t l H more; [discriminate H|]. cbn [tries Nat.add] in *. destruct (increase s e t) as [c|]; [|exact H].
  destruct (tries fuel s e (Some c)) as [l'|] eqn:E; [|discriminate H]. now rewrite (IH _ _ _ _ E).
Qed.
(** each step goes up, and never over the maximum *)
Definition from (t : option Z) (n : Z) : Prop := match t with Some c => (c < n)%Z | None => True end.
Lemma increase_up s e t n : increase s e t = Some n -> from t n /\ (n <= max_threads e)%Z.
Proof.
  unfold increase. fold (lo s e) (hi s e). destruct t as [c|]; destruct (mt_set s) as [|x set].
  - destruct (_ && _)%bool eqn:E; [|discriminate]. intros H. injection H as <-. cbn. lia.
  - intros H. apply find_some in H as [_ H]. apply andb_true_iff in H as [H1 H2]. unfold in_range in H1. cbn [from]. lia.
  - destruct (Z.leb_spec (lo s e) (max_threads e)); [|discriminate]. intros X. injection X as <-. split; [exact I|lia].
  - intros H. apply find_some in H as [_ H]. unfold in_range in H. cbn [from]. split; [exact I|lia].
Qed.
Lemma tries_ends s e : forall n c, (max_threads e - c < Z.of_nat n)%Z -> (c <= max_threads e)%Z -> exists l, tries n s e (Some c) = Some l.
Proof.
  induction n as [|n IH]; intros c H Hc; [lia|]. cbn [tries]. destruct (increase s e (Some c)) as [m|] eqn:E; [|now exists []].
  apply increase_up in E as [E1 E2]. cbn in E1. destruct (IH m) as [l ->]; [lia|lia|]. now exists (m :: l).
Qed.
Lemma first_low s e n : x_minor e < 100 -> increase s e None = Some n -> (0 <= n)%Z.
Proof.
  intros Hm. unfold increase. fold (lo s e) (hi s e). destruct (mt_set s) as [|x set].
  - destruct (_ <=? _)%Z; [|discriminate]. intros X. injection X as <-. unfold lo, min_threads. destruct (Z.ltb_spec 0 (mt_min s)); [lia|]. destruct (old_mt e); lia.
  - intros H. apply find_some in H as [_ H]. apply (range_spec s e n Hm) in H as [H _]. unfold takes in H. destruct (_ <? _); lia.
Qed.
Lemma tries_S n s e t : tries (S n) s e t = match increase s e t with None => Some [] | Some c => option_map (cons c) (tries n s e (Some c)) end.
Proof. reflexivity. Qed.
Lemma tries_total s e : x_minor e < 100 -> exists l, tries 34 s e None = Some l.
Proof.
  intros Hm. rewrite (tries_S 33). destruct (increase s e None) as [c|] eqn:E; [|now exists []].
  pose proof (first_low s e c Hm E) as Hc. apply increase_up in E as [_ E2]. destruct (tries_ends s e 33 c) as [l El]; [|exact E2|].
  - change (Z.of_nat 33) with 33%Z. unfold max_threads. destruct (old_mt e); lia.
  - rewrite El. now exists (c :: l).
Qed.
Lemma tries_sorted n : forall s e t l, tries n s e t = Some l -> StronglySorted Z.lt l /\ Forall (from t) l.
Proof.
  induction n as [|n IH]; intros s e t l H; [discriminate H|]. cbn [tries] in H. destruct (increase s e t) as [c|] eqn:E; [|injection H as <-; split; constructor].
  destruct (tries n s e (Some c)) as [l'|] eqn:El; [|discriminate H]. injection H as <-. apply IH in El as [H1 H2]. apply increase_up in E as [E _].
  split; [constructor; [exact H1|exact H2]|]. constructor; [exact E|]. eapply Forall_impl; [|exact H2]. cbn. intros m Hm. destruct t; cbn in *; lia.
Qed.
Lemma tries_each n : forall s e t l (P : Z -> Prop), tries n s e t = Some l ->
  (forall c, increase s e t = Some c -> P c) -> (forall c d, P c -> increase s e (Some c) = Some d -> P d) -> Forall P l.
Proof.
  induction n as [|n IH]; intros s e t l P H H1 H2; [discriminate H|]. cbn [tries] in H. destruct (increase s e t) as [c|] eqn:E; [|injection H as <-; constructor].
  destruct (tries n s e (Some c)) as [l'|] eqn:El; [|discriminate H]. injection H as <-. constructor; [now apply H1|]. apply (IH _ _ _ _ _ El); [|exact H2]. intros d Hd. apply (H2 c); [now apply H1|exact Hd].
Qed.
Lemma tries_allowed s e n l : x_minor e < 100 -> settings_ok s -> tries n s e None = Some l -> Forall (allowed s e) l.
Proof.
  intros Hm Hs H. destruct (mt_set s) as [|x set] eqn:Es.
  - assert (Hs' : (0 < mt_min s -> 0 < mt_max s -> mt_min s <= mt_max s)%Z) by (destruct Hs as [X|X]; [now rewrite Es in X|exact X]).
    eapply Forall_impl; [|eapply (tries_each n s e None l (fun c => in_range (lo s e) (hi s e) (max_threads e) c = true) H)].
    + intros c Hc. apply (range_spec s e c Hm) in Hc as [H1 H2]. split; [exact H1|]. split; [exact H2|]. now rewrite Es.
    + intros c. unfold increase. fold (lo s e) (hi s e). rewrite Es. destruct (Z.leb_spec (lo s e) (max_threads e)) as [Hl|Hl]; [|discriminate]. intros X. injection X as <-.
      assert (lo s e <= hi s e)%Z; [|unfold in_range; lia].
      unfold lo, hi, min_threads, max_threads in *. destruct (Z.ltb_spec 0 (mt_min s)), (Z.ltb_spec 0 (mt_max s)), (old_mt e); lia.
    + intros c d Hc. unfold increase. fold (lo s e) (hi s e). rewrite Es. destruct (_ && _)%bool eqn:E; [|discriminate]. intros X. injection X as <-. unfold in_range in *. lia.
  - eapply (tries_each n s e None l (allowed s e) H).
    + intros c. unfold increase. fold (lo s e) (hi s e). rewrite Es. intros X. apply find_some in X as [X1 X2]. apply (range_spec s e c Hm) in X2 as [H1 H2]. split; [exact H1|]. split; [exact H2|]. now rewrite Es.
    + intros c d _. unfold increase. fold (lo s e) (hi s e). rewrite Es. intros X. apply find_some in X as [X1 X2]. apply andb_true_iff in X2 as [X2 _]. apply (range_spec s e d Hm) in X2 as [H1 H2]. split; [exact H1|]. split; [exact H2|]. now rewrite Es.
Qed.
Theorem threads_ok s e : x_minor e < 100 -> settings_ok s ->
  exists l, (forall fuel, (34 <= fuel)%nat -> tries fuel s e None = Some l) /\ StronglySorted Z.lt l /\ Forall (allowed s e) l.
Proof.
  intros Hm Hs. destruct (tries_total s e Hm) as [l Hl]. exists l. split; [|split].
  - intros fuel Hf. replace fuel with (34 + (fuel - 34))%nat by lia. now apply tries_more.
  - now apply tries_sorted in Hl.
  - now apply (tries_allowed s e 34).
Qed.
(** every allowed count is tried if there is no set, or a sorted one *)
Lemma find_first {A} (f : A -> bool) l x : find f l = Some x -> exists a b, l = a ++ x :: b /\ Forall (fun y => f y = false) a.
Proof.
  induction l as [|y l IH]; cbn; [discriminate|]. destruct (f y) eqn:E; [intros H; injection H as ->; now exists [], l|]. intros H. destruct (IH H) as (a & b & -> & Ha). exists (y :: a), b. split; [reflexivity|now constructor].
Qed.
Lemma increase_next s e t c : x_minor e < 100 -> settings_ok s -> (mt_set s = [] \/ StronglySorted Z.lt (mt_set s)) ->
  (match t with Some x => allowed s e x | None => True end) ->
  match increase s e t with
  | Some n => allowed s e n /\ (allowed s e c -> from t c -> n <= c)%Z
  | None => allowed s e c -> from t c -> False
  end.
Proof.
  intros Hm Hs Hset Ht.
  assert (R : forall n, in_range (lo s e) (hi s e) (max_threads e) n = true <-> takes e n /\ limits s n) by (intros n; apply (range_spec s e n Hm)).
  destruct (mt_set s) as [|x set] eqn:Es.
  - assert (Al : forall n, allowed s e n <-> in_range (lo s e) (hi s e) (max_threads e) n = true).
    { intros n. rewrite R. unfold allowed. rewrite Es. intuition congruence. }
    assert (Hs' : (0 < mt_min s -> 0 < mt_max s -> mt_min s <= mt_max s)%Z) by (destruct Hs as [X|X]; [now rewrite Es in X|exact X]).
    assert (LH : (lo s e <= max_threads e -> lo s e <= hi s e)%Z).
    { unfold lo, hi, min_threads, max_threads in *. destruct (Z.ltb_spec 0 (mt_min s)), (Z.ltb_spec 0 (mt_max s)), (old_mt e); lia. }
    unfold increase. fold (lo s e) (hi s e). rewrite Es. destruct t as [y|].
    + apply Al in Ht. destruct ((y <? max_threads e) && (y <? hi s e))%Z eqn:E; cbn [from]; rewrite ?Al; unfold in_range in *; lia.
    + destruct (Z.leb_spec (lo s e) (max_threads e)); cbn [from]; rewrite ?Al; unfold in_range in *; lia.
  - assert (Al : forall n, allowed s e n <-> in_range (lo s e) (hi s e) (max_threads e) n = true /\ In n (x :: set)).
    { intros n. rewrite R. unfold allowed. rewrite Es. intuition congruence. }
    destruct Hset as [Hset|Hset]; [discriminate Hset|].
    assert (Inc : increase s e t = find (fun n => in_range (lo s e) (hi s e) (max_threads e) n && match t with Some y => (y <? n)%Z | None => true end) (x :: set)).
    { unfold increase. fold (lo s e) (hi s e). rewrite Es. destruct t as [y|]; [reflexivity|]. generalize (x :: set). clear. induction l as [|z l IH]; [reflexivity|]. cbn [find]. rewrite andb_true_r, IH. reflexivity. }
    rewrite Inc. destruct (find _ (x :: set)) as [n|] eqn:E.
    + pose proof (find_some _ _ E) as [E1 E2]. apply andb_true_iff in E2 as [E2 E3]. split; [now apply Al|]. intros Hc Hf. apply Al in Hc as [Hc1 Hc2].
      destruct (find_first _ _ _ E) as (a & b & Eab & Ha). rewrite Eab in Hset, Hc2. apply in_app_or in Hc2 as [Hc2|[->|Hc2]]; [|lia|].
      * rewrite Forall_forall in Ha. specialize (Ha c Hc2). rewrite Hc1 in Ha. cbn [andb] in Ha. destruct t; [cbn in Hf; lia|discriminate Ha].
      * clear -Hset Hc2. induction a as [|z a IH]; cbn [app] in Hset; inversion Hset as [|? ? Hs Hf]; subst; [|now apply IH]. rewrite Forall_forall in Hf. specialize (Hf c Hc2). lia.
    + intros Hc Hf. apply Al in Hc as [Hc1 Hc2]. pose proof (find_none _ _ E c Hc2) as X. cbn beta in X. rewrite Hc1 in X. cbn [andb] in X. destruct t; [cbn in Hf; lia|discriminate X].
Qed.
Lemma tries_complete n : forall s e t l c, x_minor e < 100 -> settings_ok s -> (mt_set s = [] \/ StronglySorted Z.lt (mt_set s)) ->
  (match t with Some x => allowed s e x | None => True end) -> tries n s e t = Some l -> allowed s e c -> from t c -> In c l.
Proof.
  induction n as [|n IH]; intros s e t l c Hm Hs Hset Ht H Hc Hf; [discriminate H|]. cbn [tries] in H. pose proof (increase_next s e t c Hm Hs Hset Ht) as X.
  destruct (increase s e t) as [d|]; [|destruct (X Hc Hf)]. destruct X as [X1 X2]. destruct (tries n s e (Some d)) as [l'|] eqn:El; [|discriminate H]. injection H as <-.
  specialize (X2 Hc Hf). destruct (Z.eq_dec d c) as [->|Hn]; [now left|]. right. apply (IH s e (Some d) l' c); auto. cbn. lia.
Qed.
Theorem threads_all s e l : x_minor e < 100 -> settings_ok s -> (mt_set s = [] \/ StronglySorted Z.lt (mt_set s)) ->
  tries 34 s e None = Some l -> forall n, In n l <-> allowed s e n.
Proof.
  intros Hm Hs Hset H n. split.
  - pose proof (tries_allowed s e 34 l Hm Hs H) as X. rewrite Forall_forall in X. apply X.
  - intros Hn. apply (tries_complete 34 s e None l n); auto. exact I.
Qed.
Lemma over_limit : exists s e l, x_minor e < 100 /\ tries 34 s e None = Some l /\ ~ Forall (limits s) l.
Proof.
  exists (mkMt [] 8 4), ex1, [8%Z]. split; [reflexivity|]. split; [vm_compute; reflexivity|]. intros H. inversion H as [|? ? [_ X]]. cbn in X. specialize (X eq_refl). lia.
Qed.
Lemma not_tried : exists s e l n, x_minor e < 100 /\ settings_ok s /\ tries 34 s e None = Some l /\ allowed s e n /\ ~ In n l.
Proof.
  exists (mkMt [8; 4]%Z 0 0), ex1, [8%Z], 4%Z. split; [reflexivity|]. split; [left; discriminate|]. split; [vm_compute; reflexivity|]. split.
  - split; [vm_compute; split; discriminate|]. split; [split; intros X; discriminate X|]. intros _. cbn. auto.
  - intros [X|[]]. discriminate X.
Qed.
Lemma ex_threads : tries 34 (mkMt [] 0 3) ex1 None = Some [0; 1; 2; 3]%Z /\ tries 34 (mkMt [] 30 0) ex2 None = Some [30; 31; 32]%Z /\
  tries 34 (mkMt [2; 4; 24; 40] 3 0)%Z ex2 None = Some [4; 24]%Z.
Proof. vm_compute. auto. Qed.

(** ** The name *)
Lemma width_spec c : match utf8_enc1 c with Some b => scalar c /\ lenN b = utf8_width c | None => ~ scalar c end.
Proof.
  unfold utf8_enc1, utf8_width, scalar, is_surrogate.
  repeat match goal with |- context [if ?x then _ else _] => destruct x eqn:? end; try (split; [lia|reflexivity]); lia.
Qed.
Lemma size_spec t : match utf8_enc t with Some b => Forall scalar t /\ lenN b = utf8_size t | None => ~ Forall scalar t end.
Proof.
  induction t as [|c t IH]; [split; [constructor|reflexivity]|]. cbn [utf8_enc]. pose proof (width_spec c) as W. destruct (utf8_enc1 c) as [a|].
  - destruct (utf8_enc t) as [b|].
    + destruct W, IH. split; [now constructor|]. rewrite lenN_app. cbn [utf8_size fold_right]. fold (utf8_size t). lia.
    + intros X. inversion X; subst. contradiction.
  - intros X. inversion X; subst. contradiction.
Qed.
Lemma header_iff app : (exists b, srr_header_bytes app = Ok b) <-> Forall scalar app /\ utf8_size app <= 65526.
Proof.
  pose proof (size_spec app) as S. split.
  - intros [b H]. unfold srr_header_bytes in H. unfold encode_utf8 in H. destruct (utf8_enc app) as [d|] eqn:Ed; [|discriminate H]. cbn [bind] in H. destruct S as [S1 S2]. split; [exact S1|].
    destruct app as [|c app]; [cbn; lia|]. assert (L : 0 <? lenN (c :: app) = true) by (rewrite lenN_cons; lia). rewrite L in H. bindinv H. unfold write_header in E. bindinv E. bindinv E. bindinv E. bindinv E.
    match goal with X : pack 2 (7 + 2 + lenN d) = Ok _ |- _ => apply pack_inv in X as [X _] end. change (256 ^ 2) with 65536 in *. lia.
  - intros [H1 H2]. destruct (utf8_enc app) as [d|] eqn:Ed; [|contradiction]. destruct S as [_ S]. eexists. apply header_ok; [unfold RarSpec.valid_text; congruence|]. unfold RarSpec.utf8. rewrite Ed. lia.
Qed.
Lemma create_with app stores vols compressed osos : creatable stores vols compressed osos ->
  (exists b, create_srr app stores vols compressed osos = Ok b) <-> (exists b, srr_header_bytes app = Ok b).
Proof.
  intros [b0 H0]. unfold create_srr in *. bindinv H0. split.
  - intros [b H]. bindinv H. eauto.
  - intros [h Hh]. rewrite Hh. cbn [bind]. bindinv H0. bindinv H0. bindinv H0. rewrite E0. cbn [bind]. rewrite E1. cbn [bind]. rewrite E2. cbn [bind]. eauto.
Qed.
Theorem name_exact app stores vols compressed osos : creatable stores vols compressed osos ->
  (exists b, create_srr app stores vols compressed osos = Ok b) <-> Forall scalar app /\ utf8_size app <= 65526.
Proof. intros H. rewrite (create_with app _ _ _ _ H). apply header_iff. Qed.
Lemma ascii_size t : Forall (fun c => c < 128) t -> Forall scalar t /\ utf8_size t = lenN t.
Proof.
  induction 1 as [|c t Hc H [IH1 IH2]]; [split; [constructor|reflexivity]|]. split; [constructor; [left; lia|exact IH1]|]. cbn [utf8_size fold_right]. fold (utf8_size t). rewrite IH2, lenN_cons. unfold utf8_width. destruct (N.ltb_spec c 0x80); lia.
Qed.
Theorem name_ascii name name' stores vols compressed osos : change_name name = Ok name' -> Forall (fun c => c < 128) name -> creatable stores vols compressed osos ->
  exists b, create_srr name' stores vols compressed osos = Ok b.
Proof.
  unfold change_name. destruct (N.ltb_spec 0xFFF6 (lenN name)); [discriminate|]. intros E Ha Hc. apply ok_inj in E. subst name'. apply (name_exact name _ _ _ _ Hc). destruct (ascii_size name Ha). split; [assumption|lia].
Qed.
Lemma name_surrogate : exists name, change_name name = Ok name /\ forall stores vols compressed osos, exists e, create_srr name stores vols compressed osos = Err e.
Proof. exists [0xD800]. split; [reflexivity|]. intros. eexists. reflexivity. Qed.
Lemma rep_size n c : utf8_size (repN n c) = n * utf8_width c.
Proof.
  unfold repN. rewrite <- (N2Nat.id n) at 2. generalize (N.to_nat n). clear n. induction n as [|n IH]; [reflexivity|]. cbn [repeat utf8_size fold_right]. fold (utf8_size (repeat c n)). rewrite IH. lia.
Qed.
Lemma name_long : exists name, Forall scalar name /\ change_name name = Ok name /\ forall stores vols compressed osos, exists e, create_srr name stores vols compressed osos = Err e.
Proof.
  exists (repN 40000 233). assert (L : lenN (repN 40000 233) = 40000) by apply lenN_repN.
  assert (F : Forall scalar (repN 40000 233)) by (apply Forall_forall; intros x Hx; apply repeat_spec in Hx as ->; left; reflexivity). split; [exact F|]. split.
  - unfold change_name. rewrite L. reflexivity.
  - intros stores vols compressed osos. unfold create_srr. destruct (srr_header_bytes (repN 40000 233)) as [h|e] eqn:E; [|cbn [bind]; now exists e].
    exfalso. assert (X : exists b, srr_header_bytes (repN 40000 233) = Ok b) by now exists h. apply header_iff in X as [_ X]. rewrite rep_size in X. change (utf8_width 233) with 2 in X. lia.
Qed.
Lemma ex_creatable : creatable [(str "a.nfo", bstr "hi")] [] false [] /\ change_name (str "pyReScene 0.7") = Ok (str "pyReScene 0.7").
Proof. split; [|reflexivity]. eexists. vm_compute. reflexivity. Qed.
