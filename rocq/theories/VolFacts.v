(** VolFacts: volume names. *)
From Coq Require Import Permutation.
From Verif Require Import Base BaseFacts VolName VolSpec.

(** ** Matching *)
Definition lowered (p : text) : Prop := Forall (fun c => lower1 c = c) p.
Lemma lower1_iff p c : lower1 p = p -> (p =? lower1 c) = true <-> c = p \/ (65 <= c <= 90 /\ p = c + 32).
Proof. unfold lower1. intros H. destruct ((65 <=? c) && (c <=? 90)) eqn:E; destruct ((65 <=? p) && (p <=? 90)) eqn:F; lia. Qed.
Lemma up_to_case_cons a t s : up_to_case (a :: t) s <-> exists b s', s = b :: s' /\ (a = b \/ (65 <= a <= 90 /\ b = a + 32)) /\ up_to_case t s'.
Proof.
  split.
  - intros H. inversion H; subst. eauto.
  - intros (b & s' & -> & A & B). now constructor.
Qed.
Lemma up_to_case_len t s : up_to_case t s -> length t = length s.
Proof. induction 1; cbn; congruence. Qed.
Lemma up_to_case_app_inv t a b : up_to_case t (a ++ b) -> exists x y, t = x ++ y /\ up_to_case x a /\ up_to_case y b.
Proof. intros H. apply Forall2_app_inv_r in H as (x & y & A & B & ->). eauto. Qed.
Lemma up_to_case_app a b c d : up_to_case a b -> up_to_case c d -> up_to_case (a ++ c) (b ++ d).
Proof. apply Forall2_app. Qed.
Lemma up_to_case_rev a b : up_to_case a b -> up_to_case (rev a) (rev b).
Proof.
  intros H. induction H as [|x y a b Hxy H IH]; [constructor|]. cbn [rev]. apply up_to_case_app; [exact IH|].
  constructor; [exact Hxy|constructor].
Qed.
Lemma up_to_case_refl t : up_to_case t t.
Proof. induction t; constructor; auto. Qed.

Lemma istarts_spec p : lowered p -> forall r, istarts p r = true <-> exists e r', r = e ++ r' /\ up_to_case e p.
Proof.
  unfold istarts. induction p as [|c p IH]; intros L r.
  - cbn [starts_with]. split; [exists [], r; split; [reflexivity|constructor]|reflexivity].
  - apply Forall_cons_iff in L as [Lc L]. destruct r as [|x r]; cbn [starts_with].
    + split; [discriminate|]. intros (e & r' & E & U). destruct e; [inversion U|discriminate].
    + rewrite andb_true_iff, (IH L), lower1_iff by exact Lc. split.
      * intros (A & e & r' & -> & U). exists (x :: e), r'. split; [reflexivity|]. constructor; [|exact U]. destruct A; auto.
      * intros (e & r' & E & U). destruct e as [|y e]; [inversion U|]. injection E as -> ->. inversion U; subst. split; [destruct H2; auto|]. eauto.
Qed.
Lemma lowered_rev p : lowered p -> lowered (rev p).
Proof. unfold lowered. rewrite !Forall_forall. intros H c Hc. apply H. now apply in_rev. Qed.
Lemma iends_spec p t : lowered p -> istarts (rev p) (rev t) = true <-> exists a e, t = a ++ e /\ up_to_case e p.
Proof.
  intros L. rewrite istarts_spec by now apply lowered_rev. split.
  - intros (e & r' & E & U). exists (rev r'), (rev e). split.
    + rewrite <- rev_app_distr, <- E. now rewrite rev_involutive.
    + rewrite <- (rev_involutive p). now apply up_to_case_rev.
  - intros (a & e & -> & U). exists (rev e), (rev a). split; [apply rev_app_distr|now apply up_to_case_rev].
Qed.
Lemma istarts_app p e r : lowered p -> up_to_case e p -> istarts p (e ++ r) = true.
Proof. intros L U. apply istarts_spec; [exact L|eauto]. Qed.
Ltac low := unfold lowered; repeat constructor.

Lemma skip_digits ds r : Forall is_digit ds -> (forall c r', r = c :: r' -> ~ is_digit c) -> skip_while digit (ds ++ r) = r.
Proof.
  intros H Hr. induction H as [|d ds Hd H IH]; cbn [app skip_while].
  - destruct r as [|c r']; [reflexivity|]. cbn [skip_while]. specialize (Hr c r' eq_refl). unfold is_digit in Hr. unfold digit. destruct (_ && _) eqn:E; [lia|reflexivity].
  - unfold digit at 1. unfold is_digit in Hd. destruct (_ && _) eqn:E; [exact IH|lia].
Qed.
Lemma skip_split f r : exists a, r = a ++ skip_while f r /\ Forall (fun c => f c = true) a.
Proof.
  induction r as [|c r (a & E & H)]; cbn [skip_while]; [exists []; split; [reflexivity|constructor]|].
  destruct (f c) eqn:F.
  - exists (c :: a). split; [cbn [app]; congruence|constructor; assumption].
  - exists []. split; [reflexivity|constructor].
Qed.
Lemma digit_iff c : digit c = true <-> is_digit c.
Proof. unfold digit, is_digit. lia. Qed.

(** ** Numbers *)
Lemma dec_len k n : length (dec k n) = k.
Proof. revert n. induction k as [|k IH]; intros n; cbn [dec]; [reflexivity|]. rewrite app_length, IH. cbn. lia. Qed.
Lemma dec_digits k n : Forall is_digit (dec k n).
Proof.
  revert n. induction k as [|k IH]; intros n; cbn [dec]; [constructor|]. apply Forall_app. split; [apply IH|].
  constructor; [|constructor]. unfold is_digit. assert (n mod 10 < 10) by (apply N.mod_lt; lia). lia.
Qed.
Lemma dec_inj k : forall n m, n < 10 ^ N.of_nat k -> m < 10 ^ N.of_nat k -> dec k n = dec k m -> n = m.
Proof.
  induction k as [|k IH]; intros n m Hn Hm E.
  - change (10 ^ N.of_nat 0) with 1 in *. lia.
  - cbn [dec] in E. apply app_inj_tail in E as [E1 E2]. rewrite Nnat.Nat2N.inj_succ, N.pow_succ_r' in *.
    apply IH in E1; [|apply N.div_lt_upper_bound; lia|apply N.div_lt_upper_bound; lia].
    rewrite (N.div_mod' n 10), (N.div_mod' m 10). lia.
Qed.
Lemma inc_dec k : forall n r, n + 1 < 10 ^ N.of_nat k -> inc_rev (rev (dec k n) ++ r) = Ok (rev (dec k (n + 1)) ++ r).
Proof.
  induction k as [|k IH]; intros n r H.
  - change (10 ^ N.of_nat 0) with 1 in *. lia.
  - cbn [dec]. rewrite !rev_app_distr. cbn [rev app inc_rev]. rewrite Nnat.Nat2N.inj_succ, N.pow_succ_r' in *.
    assert (Hm : n mod 10 < 10) by (apply N.mod_lt; lia). pose proof (N.div_mod' n 10) as D.
    destruct (N.eqb_spec (48 + n mod 10) 57) as [E|E].
    + assert (E1 : (n + 1) / 10 = n / 10 + 1).
      { symmetry. apply (N.div_unique (n + 1) 10 (n / 10 + 1) 0); lia. }
      assert (E2 : (n + 1) mod 10 = 0).
      { symmetry. apply (N.mod_unique (n + 1) 10 (n / 10 + 1) 0); lia. }
      rewrite IH by lia. cbn [bind]. rewrite E1, E2. reflexivity.
    + assert (E1 : (n + 1) / 10 = n / 10).
      { symmetry. apply (N.div_unique (n + 1) 10 (n / 10) (n mod 10 + 1)); lia. }
      assert (E2 : (n + 1) mod 10 = n mod 10 + 1).
      { symmetry. apply (N.mod_unique (n + 1) 10 (n / 10) (n mod 10 + 1)); lia. }
      rewrite (proj2 (N.ltb_lt (48 + n mod 10 + 1) 0x110000)) by lia. rewrite E1, E2. f_equal. f_equal. lia.
Qed.
Lemma inc_ok a b r : In 46 a -> inc_rev (rev a) = Ok (rev b) -> r = b -> inc a = Ok r.
Proof.
  intros H E ->. unfold inc. destruct (rev a) as [|c r'] eqn:R.
  - apply (f_equal (@rev N)) in R. rewrite rev_involutive in R. subst a. destruct H.
  - assert (F : forallb (N.eqb 57) a = false).
    { destruct (forallb _ _) eqn:F; [|reflexivity]. rewrite forallb_forall in F. apply F in H. discriminate. }
    rewrite F, E. cbn [bind]. now rewrite rev_involutive.
Qed.

Lemma cut_end_app a b n : n = lenN b -> cut_end n (a ++ b) = a.
Proof. intros ->. unfold cut_end. rewrite rev_app_distr, dropN_app_exact by (symmetry; apply lenN_rev). apply rev_involutive. Qed.
Lemma last_part_app a b n : n = lenN b -> last_part n (a ++ b) = b.
Proof. intros ->. unfold last_part. rewrite rev_app_distr, takeN_app_exact by (symmetry; apply lenN_rev). apply rev_involutive. Qed.
Lemma case4 e : up_to_case e (str ".rar") -> exists a b c, e = [46; a; b; c] /\ up_to_case [a; b; c] (str "rar").
Proof.
  intros H. destruct e as [|x [|a [|b [|c [|y e]]]]]; try (apply up_to_case_len in H; discriminate).
  pose proof H as U. apply up_to_case_cons in H as (q & s' & E & Hx & H). injection E as <- <-. exists a, b, c. split; [|exact H]. f_equal. lia.
Qed.
Lemma case5 e : up_to_case e (str ".part") -> exists a b c d, e = [46; a; b; c; d] /\ up_to_case [a; b; c; d] (str "part") /\ ~ is_digit d.
Proof.
  intros H. destruct e as [|x [|a [|b [|c [|d [|y e]]]]]]; try (apply up_to_case_len in H; discriminate).
  apply up_to_case_cons in H as (q & s' & E & Hx & H). injection E as <- <-. exists a, b, c, d. split; [f_equal; lia|]. split; [exact H|].
  do 3 (apply up_to_case_cons in H as (? & ? & E & _ & H); injection E as <- <-).
  apply up_to_case_cons in H as (? & ? & E & Hd & H). injection E as <- <-. unfold is_digit. lia.
Qed.

Lemma drop3 {A} (a b c d : A) r : dropN 3 (a :: b :: c :: d :: r) = d :: r.
Proof. reflexivity. Qed.
(** ** The tests *)
Lemma match_rar_spec t : match_rar t = true <-> exists p e, t = p ++ e /\ up_to_case e (str ".rar").
Proof. apply iends_spec. low. Qed.
Lemma match_part_spec base part ds rar : up_to_case part (str ".part") -> Forall is_digit ds -> up_to_case rar (str ".rar") ->
  match_part (base ++ part ++ ds ++ rar) = true.
Proof.
  intros Hp Hd Hr. destruct (case4 _ Hr) as (x & y & z & -> & Hr3). destruct (case5 _ Hp) as (a & b & c & d & -> & Hp4 & Hn).
  unfold match_part. rewrite !rev_app_distr. cbn [rev app].
  match goal with |- context [istarts ?p (z :: y :: x :: ?r)] =>
    replace (istarts p (z :: y :: x :: r)) with true by (symmetry; apply (istarts_app p [z; y; x]); [low|exact (up_to_case_rev _ _ Hr3)]) end.
  cbn [andb]. rewrite drop3.
  rewrite <- !app_assoc. rewrite skip_digits.
  - apply (istarts_app (rev (str ".part")) [d; c; b; a; 46]); [low|]. apply (up_to_case_rev [46; a; b; c; d] (str ".part") Hp).
  - rewrite Forall_forall in *. intros q Hq. apply Hd. now apply in_rev.
  - intros c0 r' E. cbn [app] in E. injection E as <- _. exact Hn.
Qed.
Lemma match_part_old base rar : up_to_case rar (str ".rar") -> match_part (base ++ rar) = true -> like_part base.
Proof.
  intros Hr H. destruct (case4 _ Hr) as (x & y & z & -> & Hr3). unfold match_part in H. rewrite rev_app_distr in H. cbn [rev app] in H.
  apply andb_true_iff in H as [_ H]. rewrite drop3 in H.
  destruct (skip_split digit (rev base)) as (ds & E & D). set (r := skip_while digit (rev base)) in *.
  apply istarts_spec in H as (e & r' & E2 & U); [|low]. exists (rev r'), (rev e), (rev ds). split.
  - rewrite <- !rev_app_distr. rewrite <- app_assoc, <- E2, <- E. now rewrite rev_involutive.
  - split; [now apply up_to_case_rev in U|]. rewrite Forall_forall in *. intros c Hc. apply digit_iff, D. now apply in_rev.
Qed.

Theorem is_rar_spec t : is_rar t = true <-> rar_ending t.
Proof.
  unfold is_rar, rar_ending. rewrite orb_true_iff, match_rar_spec. split.
  - intros [H|H]; [now left|right].
    destruct (rev t) as [|b [|a [|c [|d r]]]] eqn:R; try discriminate. rewrite !andb_true_iff, orb_true_iff, !digit_iff, andb_true_iff in H.
    exists (rev r), c, a, b. split.
    + rewrite <- (rev_involutive t), R. cbn [rev]. rewrite <- !app_assoc. cbn [app]. destruct H as [[[H _] _] _]. apply N.eqb_eq in H. now subst d.
    + destruct H as [[[_ H1] H2] H3]. split; [exact H2|]. split; [exact H1|]. destruct H3 as [H3|H3]; [now left|right].
      unfold lower1 in H3. destruct (_ && _) eqn:E in H3; lia.
  - intros [H|(p & c & a & b & -> & Ha & Hb & Hc)]; [now left|right]. rewrite rev_app_distr. cbn [rev app].
    rewrite !andb_true_iff, orb_true_iff, !digit_iff, andb_true_iff. repeat split; try apply Ha; try apply Hb.
    destruct Hc as [Hc|Hc]; [now left|right]. unfold lower1. destruct (_ && _) eqn:E; lia.
Qed.

(** ** C19 *)
Lemma dec2_99 n : n < 100 -> dec 2 n = [48 + n / 10; 48 + n mod 10].
Proof. intros H. cbn [dec app]. rewrite (N.mod_small (n / 10) 10) by (apply N.div_lt_upper_bound; lia). reflexivity. Qed.
Lemma in_dot a b c : In 46 (a ++ 46 :: b ++ c).
Proof. apply in_or_app. right. now left. Qed.
Lemma rar_not_old p c a b : is_digit b -> match_rar (p ++ [46; c; a; b]) = false.
Proof.
  intros H. destruct (match_rar _) eqn:E; [|reflexivity]. apply match_rar_spec in E as (q & e & E & U).
  destruct (case4 _ U) as (x & y & z & -> & U3).
  apply (f_equal (@rev N)) in E. rewrite !rev_app_distr in E. cbn [rev app] in E. injection E as -> _ _ _.
  do 2 (apply up_to_case_cons in U3 as (? & ? & E & _ & U3); injection E as <- <-).
  apply up_to_case_cons in U3 as (? & ? & E & Hd & U3). injection E as <- <-. unfold is_digit in H. lia.
Qed.
Lemma part_not_old p c a b : is_digit b -> match_part (p ++ [46; c; a; b]) = false.
Proof.
  intros H. destruct (match_part _) eqn:E; [|reflexivity]. unfold match_part in E. apply andb_true_iff in E as [E _].
  apply iends_spec in E as (q & e & E & U); [|low].
  destruct e as [|x [|y [|z [|w e]]]]; try (apply up_to_case_len in U; discriminate).
  apply (f_equal (@rev N)) in E. rewrite !rev_app_distr in E. cbn [rev app] in E. injection E as -> _ _ _.
  do 2 (apply up_to_case_cons in U as (? & ? & E & _ & U); injection E as <- <-).
  apply up_to_case_cons in U as (? & ? & E & Hd & U). injection E as <- <-. unfold is_digit in H. lia.
Qed.
Lemma is_rar_old p c a b : is_digit a -> is_digit b -> is_digit c \/ 114 <= c <= 122 -> is_rar (p ++ [46; c; a; b]) = true.
Proof. intros A B C. apply is_rar_spec. right. exists p, c, a, b. split; [reflexivity|]. split; [exact A|]. split; [exact B|]. destruct C; auto. Qed.

Theorem next_name s old i : style_ok s -> told s old -> i + 1 < vol_limit s ->
  next_archive (vol_name s i) old = Ok (vol_name s (i + 1)).
Proof.
  intros Hs Ht Hl. unfold next_archive. destruct s as [base rar|base part rar k|base start]; cbn [style_ok told vol_limit vol_name] in *.
  - replace (i + 1 =? 0) with false by lia. replace (i + 1 - 1) with i by lia. destruct (N.eqb_spec i 0) as [->|Hi].
    + assert (E : match_part (base ++ rar) && negb old = false).
      { destruct Ht as [->|Ht]; [now rewrite andb_false_r|]. destruct (match_part (base ++ rar)) eqn:E; [|reflexivity].
        apply match_part_old in E; [contradiction|exact Hs]. }
      rewrite E. rewrite (proj2 (match_rar_spec (base ++ rar))) by eauto.
      rewrite cut_end_app by (apply up_to_case_len in Hs; rewrite lenN_length, Hs; reflexivity). reflexivity.
    + set (j := i - 1). assert (Hj : j < 900) by lia. replace i with (j + 1) by lia. assert (Hm : j mod 100 < 100) by (apply N.mod_lt; lia).
      cbn [app]. rewrite dec2_99 by exact Hm. set (u := j mod 100) in *. set (q := j / 100) in *.
      assert (Hu : u / 10 < 10) by (apply N.div_lt_upper_bound; lia). assert (Hv : u mod 10 < 10) by (apply N.mod_lt; lia).
      assert (Hq : q < 9) by (apply N.div_lt_upper_bound; lia). pose proof (N.div_mod' j 100) as D. fold u q in D.
      rewrite part_not_old, rar_not_old, is_rar_old by (unfold is_digit; lia). cbn [andb negb].
      eapply inc_ok; [apply (in_dot base [_; _; _] [])| |reflexivity].
      destruct (N.lt_ge_cases (u + 1) 100) as [Hu1|Hu1].
      * assert (E1 : (j + 1) / 100 = q) by (symmetry; apply (N.div_unique (j + 1) 100 q (u + 1)); lia).
        assert (E2 : (j + 1) mod 100 = u + 1) by (symmetry; apply (N.mod_unique (j + 1) 100 q (u + 1)); lia).
        rewrite E1, E2. pose proof (inc_dec 2 u (rev (base ++ [46; 114 + q]))) as I. rewrite <- rev_app_distr, <- app_assoc in I.
        cbn [app] in I. rewrite (dec2_99 u Hm) in I. rewrite I by (change (10 ^ N.of_nat 2) with 100; lia). now rewrite <- rev_app_distr, <- app_assoc.
      * assert (E0 : u = 99) by lia. 
        assert (E1 : (j + 1) / 100 = q + 1) by (symmetry; apply (N.div_unique (j + 1) 100 (q + 1) 0); lia).
        assert (E2 : (j + 1) mod 100 = 0) by (symmetry; apply (N.mod_unique (j + 1) 100 (q + 1) 0); lia).
        rewrite E0, E1, E2. rewrite !rev_app_distr. change (48 + 99 / 10) with 57. change (48 + 99 mod 10) with 57. cbn [rev app].
        cbn [inc_rev N.eqb Pos.eqb bind]. replace (114 + q =? 57) with false by lia. rewrite (proj2 (N.ltb_lt (114 + q + 1) 0x110000)) by lia.
        cbn [bind]. rewrite (dec2_99 0) by lia. replace (114 + q + 1) with (114 + (q + 1)) by lia. reflexivity.
  - destruct Hs as [Hp Hr]. subst old. rewrite match_part_spec by (try assumption; apply dec_digits). cbn [andb negb].
    rewrite !app_assoc. rewrite cut_end_app, last_part_app by (apply up_to_case_len in Hr; rewrite lenN_length, Hr; reflexivity).
    rewrite <- !app_assoc. rewrite (inc_ok _ (base ++ part ++ dec k (i + 1 + 1)) (base ++ part ++ dec k (i + 1 + 1))).
    + cbn [bind]. now rewrite <- !app_assoc.
    + destruct (case5 _ Hp) as (a & b & c & d & -> & _). apply in_or_app. right. now left.
    + rewrite app_assoc, rev_app_distr, inc_dec by lia. now rewrite <- rev_app_distr, <- app_assoc.
    + reflexivity.
  - set (n := start + i) in *. assert (Hn : n + 1 < 1000) by lia.
    assert (Ed : forall m, m < 1000 -> dec 3 m = [48 + m / 10 / 10; 48 + (m / 10) mod 10; 48 + m mod 10]).
    { intros m Hm. cbn [dec app]. rewrite (N.mod_small (m / 10 / 10) 10); [reflexivity|]. apply N.div_lt_upper_bound; [lia|]. apply N.div_lt_upper_bound; lia. }
    replace (start + (i + 1)) with (n + 1) by lia. cbn [app].
    assert (E : next_archive (base ++ 46 :: dec 3 n) old = inc (base ++ 46 :: dec 3 n)).
    { unfold next_archive. rewrite (Ed n) by lia. assert (A : n / 10 / 10 < 10) by (apply N.div_lt_upper_bound; [lia|]; apply N.div_lt_upper_bound; lia).
      assert (B : (n / 10) mod 10 < 10) by (apply N.mod_lt; lia). assert (C : n mod 10 < 10) by (apply N.mod_lt; lia).
      rewrite part_not_old, rar_not_old, is_rar_old by (unfold is_digit; lia). reflexivity. }
    unfold next_archive in E. rewrite E. apply (inc_ok _ (base ++ 46 :: dec 3 (n + 1))); [|  |reflexivity].
    + apply in_or_app. right. now left.
    + change (46 :: dec 3 n) with ([46] ++ dec 3 n). change (46 :: dec 3 (n + 1)) with ([46] ++ dec 3 (n + 1)).
      rewrite !app_assoc, !(rev_app_distr _ (dec 3 _)). apply inc_dec. change (10 ^ N.of_nat 3) with 1000. lia.
Qed.

(** ** C20 *)
Lemma ends_with_spec e t : ends_with e t = true <-> exists p, t = p ++ e.
Proof.
  unfold ends_with.
  assert (S : forall p r, starts_with N.eqb p r = true <-> exists r', r = p ++ r').
  { induction p as [|x p IH]; intros r; cbn [starts_with].
    - split; [exists r; reflexivity|reflexivity].
    - destruct r as [|y r].
      + split; [discriminate|]. intros (r' & E). discriminate.
      + rewrite andb_true_iff, IH, N.eqb_eq. split.
        * intros (-> & r' & ->). now exists r'.
        * intros (r' & E). injection E as -> ->. eauto. }
  rewrite S. split.
  - intros (r' & E). exists (rev r'). apply (f_equal (@rev N)) in E. rewrite rev_involutive, rev_app_distr, rev_involutive in E. exact E.
  - intros (p & ->). exists (rev p). apply rev_app_distr.
Qed.
Lemma ends4 (p q : text) a b c d e f g h : p ++ [a; b; c; d] = q ++ [e; f; g; h] -> a = e /\ b = f /\ c = g /\ d = h.
Proof.
  intros E. apply (f_equal (@rev N)) in E. rewrite !rev_app_distr in E. cbn [rev app] in E. injection E as -> -> -> -> _. auto.
Qed.
Lemma ends_num p a b c d e f g h : ends_with [e; f; g; h] (p ++ [a; b; c; d]) = (a =? e) && (b =? f) && (c =? g) && (d =? h).
Proof.
  apply eq_true_iff_eq. rewrite ends_with_spec, !andb_true_iff, !N.eqb_eq. split.
  - intros (q & E). apply ends4 in E. tauto.
  - intros [[[-> ->] ->] ->]. now exists p.
Qed.
Lemma is_first_dd p c a b : is_digit b -> is_first (p ++ [46; c; a; b]) = (c =? 48) && (a =? 48) && ((b =? 48) || (b =? 49)).
Proof.
  intros H. unfold is_first. pose proof (rar_not_old p c a b H) as E. unfold match_rar in E. rewrite E.
  change (str ".000") with [46; 48; 48; 48]. change (str ".001") with [46; 48; 48; 49]. rewrite !ends_num. cbn [andb orb N.eqb Pos.eqb].
  destruct (c =? 48), (a =? 48); cbn [andb]; reflexivity.
Qed.
Lemma rar_no_num rar p d e f : up_to_case rar (str ".rar") -> is_digit f -> ends_with [46; d; e; f] (p ++ rar) = false.
Proof.
  intros U F. destruct (case4 _ U) as (x & y & z & -> & U3). rewrite ends_num.
  do 2 (apply up_to_case_cons in U3 as (? & ? & E & _ & U3); injection E as <- <-).
  apply up_to_case_cons in U3 as (? & ? & E & Hd & U3). injection E as <- <-. unfold is_digit in F.
  replace (z =? f) with false by lia. now rewrite andb_false_r.
Qed.
Lemma drop4 rar r : up_to_case rar (str ".rar") -> dropN 4 (rev rar ++ r) = r.
Proof. intros U. apply dropN_app_exact. rewrite lenN_rev, lenN_length, (up_to_case_len _ _ U). reflexivity. Qed.
Lemma is_first_rar p rar : up_to_case rar (str ".rar") -> is_first (p ++ rar) =
  (let r := rev p in
   match r with c :: r' => (c =? 49) && istarts (rev (str ".part")) (skip_while (N.eqb 48) r') | [] => false end ||
    match r with c :: _ => negb (digit c) | [] => true end ||
    match r with c :: _ => digit c && negb (istarts (rev (str "part")) (skip_while digit r)) | [] => false end).
Proof.
  intros U. unfold is_first. change (str ".000") with [46; 48; 48; 48]. change (str ".001") with [46; 48; 48; 49].
  rewrite !rar_no_num by (try exact U; unfold is_digit; lia). rewrite !orb_false_r.
  assert (E : istarts RAR_REV (rev (p ++ rar)) = true) by (apply (match_rar_spec (p ++ rar)); eauto).
  rewrite E, rev_app_distr, (drop4 _ _ U). reflexivity.
Qed.
Lemma is_first_old base rar : up_to_case rar (str ".rar") -> ~ numbered base -> is_first (base ++ rar) = true.
Proof.
  intros U H. rewrite is_first_rar by exact U. cbv zeta. destruct (rev base) as [|c r] eqn:R; [reflexivity|].
  destruct (digit c) eqn:D; [|cbn [negb]; now rewrite orb_true_r]. cbn [negb]. rewrite orb_false_r.
  destruct (istarts (rev (str "part")) (skip_while digit (c :: r))) eqn:I; [|cbn [andb negb]; now rewrite orb_true_r].
  exfalso. apply H. destruct (skip_split digit (c :: r)) as (ds & E & F). set (q := skip_while digit (c :: r)) in *.
  assert (Hq : c :: r = rev base) by congruence.
  apply istarts_spec in I as (e & r' & E2 & U2); [|low]. exists (rev r'), (rev e), (rev ds). split.
  - rewrite <- !rev_app_distr, <- app_assoc, <- E2, <- E, Hq. now rewrite rev_involutive.
  - split; [now apply up_to_case_rev in U2|]. split.
    + rewrite Forall_forall in *. intros x Hx. apply digit_iff, F. now apply in_rev.
    + intros N0. apply (f_equal (@rev N)) in N0. rewrite rev_involutive in N0. subst ds. cbn [app rev] in E.
      assert (S : skip_while digit (c :: r) = skip_while digit r) by (cbn [skip_while]; now rewrite D).
      subst q. rewrite S in E. destruct (skip_split digit r) as (a & E3 & _). rewrite <- E in E3.
      apply (f_equal (@length N)) in E3. rewrite app_length in E3. cbn [length] in E3. lia.
Qed.
Lemma skip_zeros k : forall m r, m < 10 ^ N.of_nat k -> (forall c r', r = c :: r' -> c <> 48) ->
  if m =? 0 then skip_while (N.eqb 48) (rev (dec k m) ++ r) = r
  else exists c r', skip_while (N.eqb 48) (rev (dec k m) ++ r) = c :: r' /\ is_digit c.
Proof.
  induction k as [|k IH]; intros m r Hm Hr.
  - change (10 ^ N.of_nat 0) with 1 in Hm. replace m with 0 by lia. cbn [N.eqb dec rev app].
    destruct r as [|c r']; [reflexivity|]. cbn [skip_while]. specialize (Hr c r' eq_refl). destruct (N.eqb_spec 48 c); [congruence|reflexivity].
  - rewrite Nnat.Nat2N.inj_succ, N.pow_succ_r' in Hm. assert (Hd : m / 10 < 10 ^ N.of_nat k) by (apply N.div_lt_upper_bound; lia).
    assert (Hx : m mod 10 < 10) by (apply N.mod_lt; lia). pose proof (N.div_mod' m 10) as D.
    cbn [dec]. rewrite rev_app_distr. cbn [rev app skip_while]. specialize (IH (m / 10) r Hd Hr).
    destruct (N.eqb_spec 48 (48 + m mod 10)) as [E|E].
    + destruct (N.eqb_spec (m / 10) 0) as [E0|E0].
      * replace (m =? 0) with true by lia. exact IH.
      * replace (m =? 0) with false by lia. exact IH.
    + replace (m =? 0) with false by lia. exists (48 + m mod 10). eexists. split; [reflexivity|]. unfold is_digit. lia.
Qed.
Lemma is_first_new base part rar k n : up_to_case part (str ".part") -> up_to_case rar (str ".rar") -> n < 10 ^ N.of_nat k -> n <> 0 ->
  is_first (base ++ part ++ dec k n ++ rar) = (n =? 1).
Proof.
  intros Hp Hr Hn H0. rewrite !app_assoc, is_first_rar by exact Hr. cbv zeta. rewrite <- app_assoc, !rev_app_distr, <- app_assoc.
  destruct k as [|k]; [change (10 ^ N.of_nat 0) with 1 in Hn; lia|]. cbn [dec]. rewrite rev_app_distr. cbn [rev app].
  rewrite Nnat.Nat2N.inj_succ, N.pow_succ_r' in Hn. assert (Hd : n / 10 < 10 ^ N.of_nat k) by (apply N.div_lt_upper_bound; lia).
  assert (Hx : n mod 10 < 10) by (apply N.mod_lt; lia). pose proof (N.div_mod' n 10) as D.
  destruct (case5 _ Hp) as (a & b & c & d & -> & Hp4 & Hdd). 
  assert (E1 : digit (48 + n mod 10) = true) by (apply digit_iff; unfold is_digit; lia). rewrite E1. cbn [negb andb orb].
  set (R := rev (dec k (n / 10)) ++ rev [46; a; b; c; d] ++ rev base).
  assert (E2 : skip_while digit (48 + n mod 10 :: R) = [d; c; b; a] ++ 46 :: rev base).
  { unfold R. cbn [rev app]. rewrite app_comm_cons. apply skip_digits.
    - constructor; [unfold is_digit; lia|]. rewrite Forall_forall. intros q Hq. apply in_rev in Hq. exact (proj1 (Forall_forall _ _) (dec_digits _ _) _ Hq).
    - intros c0 r' E. injection E as <- _. exact Hdd. }
  rewrite E2. rewrite (istarts_app (rev (str "part")) [d; c; b; a]); [|low|exact (up_to_case_rev _ _ Hp4)]. cbn [negb]. rewrite !orb_false_r.
  pose proof (skip_zeros k (n / 10) (rev [46; a; b; c; d] ++ rev base) Hd) as Z. fold R in Z.
  assert (Z' : forall c0 r', rev [46; a; b; c; d] ++ rev base = c0 :: r' -> c0 <> 48).
  { intros c0 r' E. injection E as <- _. unfold is_digit in Hdd. lia. }
  specialize (Z Z'). destruct (N.eqb_spec (n / 10) 0) as [E0|E0].
  - rewrite Z. rewrite (istarts_app (rev (str ".part")) (rev [46; a; b; c; d])); [|low|exact (up_to_case_rev _ _ Hp)]. rewrite andb_true_r. lia.
  - destruct Z as (c0 & r' & -> & Hc0). replace (n =? 1) with false by lia. apply andb_false_iff. right.
    destruct (istarts _ _) eqn:I; [|reflexivity]. apply istarts_spec in I as (e & r2 & E & U); [|low].
    destruct e as [|x e]; [inversion U|]. injection E as <- _. change (rev (str ".part")) with [116; 114; 97; 112; 46] in U.
    apply up_to_case_cons in U as (? & ? & E & Hd' & U). injection E as <- _. unfold is_digit in Hc0. lia.
Qed.

Lemma filter_none {A} (p : A -> bool) l : (forall y, In y l -> p y = false) -> filter p l = [].
Proof. induction l as [|a l IH]; intros H; [reflexivity|]. cbn [filter]. rewrite (H a) by now left. apply IH. intros y Hy. apply H. now right. Qed.
Lemma filter_one (p : text -> bool) l x : NoDup l -> In x l -> p x = true -> (forall y, In y l -> y <> x -> p y = false) -> filter p l = [x].
Proof.
  induction 1 as [|a l Ha Hn IH]; intros Hi Hx Hy; [destruct Hi|]. cbn [filter]. destruct (text_eq_dec a x) as [->|Hne].
  - rewrite Hx. f_equal. apply filter_none. intros y Hy'. apply Hy; [now right|]. congruence.
  - rewrite (Hy a) by (try exact Hne; now left). apply IH; [destruct Hi; [contradiction|assumption]|exact Hx|]. intros y Hy'. apply Hy. now right.
Qed.
Lemma filter_two (p : text -> bool) l x y : NoDup l -> In x l -> In y l -> x <> y -> p x = true -> p y = true ->
  (forall z, In z l -> z <> x -> z <> y -> p z = false) -> filter p l = [x; y] \/ filter p l = [y; x].
Proof.
  induction 1 as [|a l Ha Hn IH]; intros Hx Hy Hne Px Py Hz; [destruct Hx|]. cbn [filter].
  destruct (text_eq_dec a x) as [->|Nx]; [|destruct (text_eq_dec a y) as [->|Ny]].
  - left. rewrite Px. f_equal. apply filter_one; [exact Hn|destruct Hy; congruence|exact Py|]. intros z Hz1 Hz2. apply Hz; [now right|congruence|exact Hz2].
  - right. rewrite Py. f_equal. apply filter_one; [exact Hn|destruct Hx; [congruence|assumption]|exact Px|]. intros z Hz1 Hz2. apply Hz; [now right|exact Hz2|congruence].
  - rewrite (Hz a) by (try assumption; now left). apply IH; try assumption; [destruct Hx; [contradiction|assumption]|destruct Hy; [contradiction|assumption]|].
    intros z Hz1. apply Hz. now right.
Qed.

Lemma vol_name_inj s i j : style_ok s -> i < vol_limit s -> j < vol_limit s -> vol_name s i = vol_name s j -> i = j.
Proof.
  intros Hs Hi Hj E. destruct s as [base rar|base part rar k|base start]; cbn [style_ok vol_limit vol_name] in *.
  - assert (X : forall m, m <> 0 -> base ++ rar <> base ++ [46; 114 + (m - 1) / 100] ++ dec 2 ((m - 1) mod 100)).
    { intros m Hm C. apply app_inv_head in C. rewrite dec2_99 in C by (apply N.mod_lt; lia). destruct (case4 _ Hs) as (x & y & z & -> & U3).
      cbn [app] in C. injection C as _ _ C. do 2 (apply up_to_case_cons in U3 as (? & ? & E' & _ & U3); injection E' as <- <-).
      apply up_to_case_cons in U3 as (? & ? & E' & Hd & U3). injection E' as <- <-. assert ((m - 1) mod 100 mod 10 < 10) by (apply N.mod_lt; lia). lia. }
    destruct (N.eqb_spec i 0), (N.eqb_spec j 0); [congruence|now apply X in E|symmetry in E; now apply X in E|].
    apply app_inv_head in E. cbn [app] in E. injection E as E1 E2 E3.
    assert (D : (i - 1) mod 100 = (j - 1) mod 100).
    { apply (dec_inj 2); [change (10 ^ N.of_nat 2) with 100; apply N.mod_lt; lia|change (10 ^ N.of_nat 2) with 100; apply N.mod_lt; lia|].
      cbn [dec app]. congruence. }
    pose proof (N.div_mod' (i - 1) 100). pose proof (N.div_mod' (j - 1) 100). lia.
  - apply app_inv_head, app_inv_head, app_inv_tail in E. apply dec_inj in E; lia.
  - apply app_inv_head, app_inv_head in E. apply dec_inj in E; [lia| |]; change (10 ^ N.of_nat 3) with 1000; destruct Hs; lia.
Qed.
Lemma vol_names_In s n x : In x (vol_names s n) <-> exists i, i < N.of_nat n /\ x = vol_name s i.
Proof.
  unfold vol_names. rewrite in_map_iff. split.
  - intros (i & <- & H). apply in_seq in H. exists (N.of_nat i). split; [lia|reflexivity].
  - intros (i & H & ->). exists (N.to_nat i). rewrite Nnat.N2Nat.id. split; [reflexivity|]. apply in_seq. lia.
Qed.
Lemma vol_names_NoDup s n : style_ok s -> N.of_nat n <= vol_limit s -> NoDup (vol_names s n).
Proof.
  intros Hs Hn. unfold vol_names. assert (G : forall m a, N.of_nat (a + m) <= vol_limit s -> NoDup (map (fun i => vol_name s (N.of_nat i)) (seq a m))).
  { clear n Hn. induction m as [|m IH]; intros a H; [constructor|]. cbn [seq map]. constructor; [|apply IH; lia].
    rewrite in_map_iff. intros (i & E & Hi). apply in_seq in Hi. apply vol_name_inj in E; [lia|exact Hs|lia|lia]. }
  apply G. exact Hn.
Qed.

(** names of volumes other than those that can be first *)
Lemma old_later base rar i : i <> 0 -> i < 901 -> exists c a b, vol_name (Old base rar) i = base ++ [46; c; a; b] /\ is_digit a /\ is_digit b /\ 114 <= c <= 122.
Proof.
  intros H H1. cbn [vol_name]. replace (i =? 0) with false by lia. rewrite dec2_99 by (apply N.mod_lt; lia). cbn [app].
  eexists _, _, _. split; [reflexivity|]. assert (A : (i - 1) mod 100 < 100) by (apply N.mod_lt; lia).
  assert ((i - 1) mod 100 / 10 < 10) by (apply N.div_lt_upper_bound; lia). assert ((i - 1) mod 100 mod 10 < 10) by (apply N.mod_lt; lia).
  assert ((i - 1) / 100 < 9) by (apply N.div_lt_upper_bound; lia). unfold is_digit. lia.
Qed.
Lemma num_name base start i : start + i < 1000 -> exists a b c, vol_name (Num base start) i = base ++ [46; a; b; c] /\ is_digit c /\
  (((a =? 48) && (b =? 48)) && ((c =? 48) || (c =? 49)) = true <-> start + i = 0 \/ start + i = 1) /\
  ((a =? 48) && (b =? 48) && (c =? 48) = true <-> start + i = 0).
Proof.
  intros H. cbn [vol_name]. set (m := start + i) in *. cbn [dec app]. rewrite (N.mod_small (m / 10 / 10) 10).
  2:{ apply N.div_lt_upper_bound; [lia|]. apply N.div_lt_upper_bound; lia. }
  eexists _, _, _. split; [reflexivity|]. assert (Hx : m mod 10 < 10) by (apply N.mod_lt; lia). assert (Hy : (m / 10) mod 10 < 10) by (apply N.mod_lt; lia).
  pose proof (N.div_mod' m 10). pose proof (N.div_mod' (m / 10) 10). unfold is_digit. rewrite !andb_true_iff, orb_true_iff, !N.eqb_eq. lia.
Qed.

Lemma drop_001_none l : forall fuel i, (forall x, In x l -> ends_with (str ".000") x = false) -> drop_001 fuel i l = l.
Proof.
  induction fuel as [|fuel IH]; intros i H; [reflexivity|]. cbn [drop_001]. destruct (nth_error l i) eqn:E; [|reflexivity].
  rewrite (H t) by (eapply nth_error_In; exact E). now apply IH.
Qed.

Lemma lower_app a b : lower (a ++ b) = lower a ++ lower b.
Proof. apply map_app. Qed.
Lemma lower_case e p : lowered p -> up_to_case e p -> lower e = p.
Proof.
  intros L U. induction U as [|x y e p H U IH]; [reflexivity|]. apply Forall_cons_iff in L as [Ly L]. cbn [lower map]. f_equal; [|now apply IH].
  destruct H as [->|[H ->]]; [exact Ly|]. unfold lower1. replace ((65 <=? x) && (x <=? 90)) with true by lia. reflexivity.
Qed.
Lemma dotrar_rar p rar : up_to_case rar (str ".rar") -> ends_with (str ".rar") (lower (p ++ rar)) = true.
Proof. intros U. apply ends_with_spec. exists (lower p). rewrite lower_app. f_equal. apply lower_case; [low|exact U]. Qed.
Lemma dotrar_dd p c a b : is_digit b -> ends_with (str ".rar") (lower (p ++ [46; c; a; b])) = false.
Proof.
  intros H. rewrite lower_app. cbn [lower map]. change (str ".rar") with [46; 114; 97; 114]. rewrite ends_num.
  assert (E : lower1 b = b) by (unfold lower1; unfold is_digit in H; destruct (_ && _) eqn:E; lia). rewrite E. unfold is_digit in H.
  replace (b =? 114) with false by lia. now rewrite andb_false_r.
Qed.

Theorem first_one s n l : style_ok s -> (0 < n)%nat -> N.of_nat n <= vol_limit s -> Permutation l (vol_names s n) ->
  first_rars l = [vol_name s 0].
Proof.
  intros Hs H0 Hn Hp.
  assert (ND : NoDup l) by (eapply Permutation_NoDup; [apply Permutation_sym; exact Hp|now apply vol_names_NoDup]).
  assert (HI : forall x, In x l <-> exists i, i < N.of_nat n /\ x = vol_name s i).
  { intros x. rewrite <- vol_names_In. split; apply Permutation_in; [exact Hp|now apply Permutation_sym]. }
  assert (I0 : In (vol_name s 0) l) by (apply HI; exists 0; split; [lia|reflexivity]).
  assert (LT : forall y, In y l -> y <> vol_name s 0 -> exists i, i <> 0 /\ i < N.of_nat n /\ y = vol_name s i).
  { intros y Hy Hne. apply HI in Hy as (i & Hi & ->). exists i. split; [intros ->; congruence|]. split; [exact Hi|reflexivity]. }
  unfold first_rars. destruct s as [base rar|base part rar k|base start].
  - cbn [style_ok vol_limit] in *.
    assert (F : forall y, In y l -> y <> vol_name (Old base rar) 0 -> is_first y = false).
    { intros y Hy Hne. destruct (LT y Hy Hne) as (i & A & B & ->). destruct (old_later base rar i A) as (c & a & b & -> & Da & Db & Dc); [lia|].
      rewrite is_first_dd by exact Db. replace (c =? 48) with false by lia. reflexivity. }
    destruct (is_first (vol_name (Old base rar) 0)) eqn:E.
    + rewrite (filter_one _ _ _ ND I0 E F). rewrite drop_001_none; [reflexivity|]. intros x [<-|[]]. cbn [vol_name N.eqb].
      change (str ".000") with [46; 48; 48; 48]. apply rar_no_num; [exact Hs|unfold is_digit; lia].
    + assert (FN : filter is_first l = []).
      { apply filter_none. intros y Hy. destruct (text_eq_dec y (vol_name (Old base rar) 0)) as [->|Hne]; [exact E|now apply F]. }
      rewrite FN. cbn [length drop_001].
      rewrite (filter_one (fun f => ends_with (str ".rar") (lower f)) l (vol_name (Old base rar) 0) ND I0).
      * cbn [filter]. destruct (mem_text _ _) eqn:M; [reflexivity|].
        assert (N1 : n = 1%nat).
        { destruct (Nat.eq_dec n 1) as [|Hn1]; [assumption|]. exfalso.
          assert (I1 : In (vol_name (Old base rar) 1) l) by (apply HI; exists 1; split; [lia|reflexivity]).
          apply mem_text_In in I1. enough (X : cut_end 3 (vol_name (Old base rar) 0) ++ str "r00" = vol_name (Old base rar) 1) by (rewrite X in M; congruence).
          cbn [vol_name N.eqb]. destruct (case4 _ Hs) as (x & y & z & -> & _). change [46; x; y; z] with ([46] ++ [x; y; z]). rewrite app_assoc, cut_end_app by reflexivity.
          rewrite <- app_assoc. f_equal. }
        subst n. apply Permutation_length in Hp. rewrite lenN_length, Hp. reflexivity.
      * cbn [vol_name N.eqb]. now apply dotrar_rar.
      * intros y Hy Hne. destruct (LT y Hy Hne) as (i & A & B & ->). destruct (old_later base rar i A) as (c & a & b & -> & Da & Db & Dc); [lia|].
        now apply dotrar_dd.
  - cbn [style_ok vol_limit] in *. destruct Hs as [Hpt Hr].
    assert (F : forall i, i < N.of_nat n -> is_first (vol_name (New base part rar k) i) = (i =? 0)).
    { intros i Hi. cbn [vol_name]. rewrite is_first_new by (try assumption; lia). lia. }
    rewrite (filter_one _ _ _ ND I0).
    + rewrite drop_001_none; [reflexivity|]. intros x [<-|[]]. cbn [vol_name]. rewrite !app_assoc. change (str ".000") with [46; 48; 48; 48]. apply rar_no_num; [exact Hr|unfold is_digit; lia].
    + rewrite F by lia. reflexivity.
    + intros y Hy Hne. destruct (LT y Hy Hne) as (i & A & B & ->). rewrite F by exact B. lia.
  - cbn [style_ok vol_limit] in *.
    assert (F : forall i, i < N.of_nat n -> is_first (vol_name (Num base start) i) = ((start + i =? 0) || (start + i =? 1))).
    { intros i Hi. destruct (num_name base start i) as (a & b & c & -> & Dc & X & _); [lia|]. rewrite is_first_dd by exact Dc.
      apply eq_true_iff_eq. rewrite X. lia. }
    assert (G : forall i, i < N.of_nat n -> ends_with (str ".000") (vol_name (Num base start) i) = (start + i =? 0)).
    { intros i Hi. destruct (num_name base start i) as (a & b & c & -> & Dc & _ & X); [lia|]. change (str ".000") with [46; 48; 48; 48]. rewrite ends_num.
      apply eq_true_iff_eq. cbn [N.eqb Pos.eqb andb]. rewrite X. lia. }
    destruct (N.eqb_spec start 1) as [->|Hst].
    + rewrite (filter_one _ _ _ ND I0).
      * rewrite drop_001_none; [reflexivity|]. intros x [<-|[]]. rewrite G by lia. reflexivity.
      * rewrite F by lia. reflexivity.
      * intros y Hy Hne. destruct (LT y Hy Hne) as (i & A & B & ->). rewrite F by exact B. lia.
    + assert (start = 0) by (destruct Hs; lia). subst start. clear Hs Hst.
      assert (C1 : cut_end 1 (vol_name (Num base 0) 0) ++ str "1" = vol_name (Num base 0) 1).
      { cbn [vol_name]. change (dec 3 (0 + 0)) with ([48; 48] ++ [48]). rewrite !app_assoc, cut_end_app by reflexivity.
        rewrite <- !app_assoc. reflexivity. }
      destruct (Nat.eq_dec n 1) as [->|Hn1].
      * rewrite (filter_one _ _ _ ND I0).
        -- cbn [length drop_001 nth_error]. rewrite G by lia. change (0 + 0 =? 0) with true. cbv iota. rewrite C1. cbn [remove1].
           destruct (teqb _ _) eqn:T; [|reflexivity]. apply teqb_eq in T. apply vol_name_inj in T; cbn [style_ok vol_limit]; try lia.
        -- rewrite F by lia. reflexivity.
        -- intros y Hy Hne. destruct (LT y Hy Hne) as (i & A & B & ->). lia.
      * assert (I1 : In (vol_name (Num base 0) 1) l) by (apply HI; exists 1; split; [lia|reflexivity]).
        assert (N01 : vol_name (Num base 0) 0 <> vol_name (Num base 0) 1).
        { intros E. apply vol_name_inj in E; cbn [style_ok vol_limit]; try lia. }
        destruct (filter_two is_first l _ _ ND I0 I1 N01) as [E|E].
        -- rewrite F by lia. reflexivity.
        -- rewrite F by lia. reflexivity.
        -- intros z Hz Z0 Z1. apply HI in Hz as (i & Hi & ->). rewrite F by exact Hi. destruct (N.eqb_spec i 0); [subst; congruence|]. destruct (N.eqb_spec i 1); [subst; congruence|]. lia.
        -- rewrite E. cbn [length drop_001 nth_error]. rewrite G by lia. change (0 + 0 =? 0) with true. cbv iota. rewrite C1. cbn [remove1].
           rewrite (proj2 (teqb_neq _ _) N01), teqb_refl. reflexivity.
        -- rewrite E. cbn [length drop_001 nth_error]. rewrite !G by lia. change (0 + 0 =? 0) with true. change (0 + 1 =? 0) with false. cbn [nth_error]. cbv iota. rewrite G by lia. change (0 + 0 =? 0) with true. cbv iota. rewrite C1. cbn [remove1].
           rewrite teqb_refl. reflexivity.
Qed.

(** several sets at once *)
Theorem first_many sets l : sets <> [] ->
  Forall (fun sn => style_ok (fst sn) /\ plain_style (fst sn) /\ (0 < snd sn)%nat /\ N.of_nat (snd sn) <= vol_limit (fst sn)) sets ->
  Permutation l (concat (map (fun sn => vol_names (fst sn) (snd sn)) sets)) ->
  forall x, In x (first_rars l) <-> exists sn, In sn sets /\ x = vol_name (fst sn) 0.
Proof.
  intros Hne Hs Hp.
  assert (HI : forall x, In x l <-> exists sn i, In sn sets /\ i < N.of_nat (snd sn) /\ x = vol_name (fst sn) i).
  { intros x. assert (E : In x l <-> In x (concat (map (fun sn => vol_names (fst sn) (snd sn)) sets))) by (split; apply Permutation_in; [exact Hp|now apply Permutation_sym]).
    rewrite E, in_concat. split.
    - intros (v & Hv & Hx). apply in_map_iff in Hv as (sn & <- & Hsn). apply vol_names_In in Hx as (i & Hi & ->). eauto.
    - intros (sn & i & Hsn & Hi & ->). exists (vol_names (fst sn) (snd sn)). split; [apply in_map_iff; eauto|]. apply vol_names_In. eauto. }
  rewrite Forall_forall in Hs.
  assert (F : forall sn i, In sn sets -> i < N.of_nat (snd sn) -> is_first (vol_name (fst sn) i) = (i =? 0) /\ ends_with (str ".000") (vol_name (fst sn) i) = false).
  { intros sn i Hsn Hi. destruct (Hs sn Hsn) as (Ho & Hpl & H0 & Hlim). destruct (fst sn) as [base rar|base part rar k|base start]; cbn [style_ok plain_style vol_limit] in *.
    - destruct (N.eqb_spec i 0) as [->|Hi0].
      + cbn [vol_name N.eqb]. split; [now apply is_first_old|]. change (str ".000") with [46; 48; 48; 48]. apply rar_no_num; [exact Ho|unfold is_digit; lia].
      + destruct (old_later base rar i Hi0) as (c & a & b & -> & Da & Db & Dc); [lia|]. rewrite is_first_dd by exact Db.
        change (str ".000") with [46; 48; 48; 48]. rewrite ends_num. replace (c =? 48) with false by lia. split; reflexivity.
    - destruct Ho as [Hpt Hr]. cbn [vol_name]. split; [rewrite is_first_new by (try assumption; lia); lia|].
      rewrite !app_assoc. change (str ".000") with [46; 48; 48; 48]. apply rar_no_num; [exact Hr|unfold is_digit; lia].
    - subst start. destruct (num_name base 1 i) as (a & b & c & -> & Dc & X & Y); [lia|]. rewrite is_first_dd by exact Dc.
      change (str ".000") with [46; 48; 48; 48]. rewrite ends_num. cbn [N.eqb Pos.eqb andb]. split; apply eq_true_iff_eq; [rewrite X|rewrite Y]; lia. }
  assert (EF : forall x, In x (filter is_first l) <-> exists sn, In sn sets /\ x = vol_name (fst sn) 0).
  { intros x. rewrite filter_In, HI. split.
    - intros ((sn & i & Hsn & Hi & ->) & Hf). rewrite (proj1 (F sn i Hsn Hi)) in Hf. exists sn. split; [exact Hsn|]. f_equal. lia.
    - intros (sn & Hsn & ->). destruct (Hs sn Hsn) as (_ & _ & H0 & _). split; [exists sn, 0; split; [exact Hsn|split; [lia|reflexivity]]|].
      rewrite (proj1 (F sn 0 Hsn ltac:(lia))). reflexivity. }
  unfold first_rars. rewrite drop_001_none.
  - destruct (filter is_first l) as [|y fs] eqn:E; [|exact EF].
    exfalso. destruct sets as [|sn sets]; [congruence|]. assert (X : In (vol_name (fst sn) 0) []) by (apply EF; exists sn; split; [now left|reflexivity]). destruct X.
  - intros x Hx. apply filter_In in Hx as [Hx _]. apply HI in Hx as (sn & i & Hsn & Hi & ->). apply (F sn i Hsn Hi).
Qed.
