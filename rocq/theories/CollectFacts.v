(** CollectFacts: proofs about the volumes an SRR file is made of. *)
From Coq Require Import Permutation.
From Verif Require Import VolName VolSpec VolFacts.
From Verif Require Import Base BaseFacts Path Rar Srr SrrFacts Sfv SfvSpec SfvFacts SfvSortFacts ProgFacts TermFacts Stream Collect CollectSpec.

Lemma rev_len (t : text) : rev t = [] -> t = [].
Proof. intros H. apply (f_equal (@rev N)) in H. now rewrite rev_involutive in H. Qed.
(** ** The next name is further on *)
Lemma inc_rev_lt r : forall r', inc_rev r = Ok r' -> length r' = length r /\ (r = map (fun _ => 57) r \/ text_lt (rev r) (rev r') = true).
Proof.
  induction r as [|c r IH]; intros r' H; cbn [inc_rev] in H; [apply ok_inj in H; subst; split; [reflexivity|now left]|]. destruct (N.eqb_spec c 57) as [->|E].
  - bindinv H. apply ok_inj in H. subst r'. destruct (IH _ E) as [L X]. cbn [length rev map]. split; [now rewrite L|]. destruct X as [X|X]; [left; now rewrite <- X|right]. apply text_lt_app; [now rewrite !rev_length, L|exact X].
  - destruct (c + 1 <? 0x110000); [|discriminate]. apply ok_inj in H. subst r'. split; [reflexivity|]. right. cbn [rev]. rewrite text_lt_prefix. cbn [text_lt]. now replace (c <? c + 1) with true by lia.
Qed.
Lemma inc_lt t t' : In 46 t -> inc t = Ok t' -> length t' = length t /\ text_lt t t' = true /\ exists r', inc_rev (rev t) = Ok r' /\ t' = rev r'.
Proof.
  intros D H. unfold inc in H. destruct (rev t) as [|c r] eqn:R; [apply rev_len in R; subst; destruct D|]. destruct (forallb (N.eqb 57) t) eqn:F; [rewrite forallb_forall in F; apply F in D; discriminate|].
  bindinv H. apply ok_inj in H. destruct (inc_rev_lt _ _ E) as [L X]. assert (Lt : length (c :: r) = length t) by (rewrite <- R; apply rev_length). split; [subst t'; rewrite rev_length; lia|]. split; [|eauto].
  destruct X as [X|X].
  - exfalso. assert (I : In 46 (c :: r)) by (rewrite <- R; now apply -> in_rev). rewrite X in I. apply in_map_iff in I as (? & ? & _). discriminate.
  - rewrite <- R, rev_involutive in X. subst t'. exact X.
Qed.
Definition phase (old : bool) (t : text) : N := if match_part t && negb old then 0 else if match_rar t then 1 else 2.
Definition ahead (old : bool) (a b : text) : Prop := phase old a < phase old b \/ phase old a = phase old b /\ text_lt a b = true.
Lemma ahead_irr old a : ~ ahead old a a.
Proof. intros [H|[_ H]]; [lia|]. now rewrite text_lt_irrefl in H. Qed.
Lemma ahead_trans old a b c : ahead old a b -> ahead old b c -> ahead old a c.
Proof.
  intros [H|[H1 H2]] [G|[G1 G2]]; [left; lia|left; lia|left; lia|right]. split; [congruence|]. clear - H2 G2. revert b c H2 G2. induction a as [|x a IH]; intros [|y b] [|z c] H G; try discriminate; [reflexivity|]. cbn [text_lt] in *.
  destruct (N.ltb_spec x z); [reflexivity|]. cbn [orb]. destruct (N.ltb_spec x y), (N.ltb_spec y z); cbn [orb] in *; try lia. apply andb_true_iff in H as [E H]. apply andb_true_iff in G as [F G]. apply andb_true_iff. split; [lia|now apply (IH b)].
Qed.
Lemma part_dot t : match_part t = true -> In 46 (cut_end 4 t) /\ t = cut_end 4 t ++ last_part 4 t.
Proof.
  intros H. split.
  - unfold match_part in H. apply andb_true_iff in H as [_ H]. unfold cut_end. apply -> in_rev. replace (dropN 4 (rev t)) with (dropN 1 (dropN 3 (rev t))) by (rewrite dropN_dropN; reflexivity).
    destruct (dropN 3 (rev t)) as [|c r']; [discriminate|]. replace (dropN 1 (c :: r')) with r' by (destruct r'; reflexivity). destruct (skip_split digit r') as (ds & E & _). set (r := skip_while digit r') in *. apply istarts_spec in H as (e & r2 & E2 & U); [|low].
    apply up_to_case_rev in U. change (rev (rev (str ".part"))) with (str ".part") in U. destruct (case5 _ U) as (a & b & x & d & Ee & _). rewrite E, E2. apply in_app_iff. right. apply in_app_iff. left. apply in_rev. rewrite Ee. now left.
  - unfold cut_end, last_part. rewrite <- rev_app_distr, takeN_dropN. now rewrite rev_involutive.
Qed.
Lemma rar_end_digits p c a b : is_digit b -> match_part (p ++ [c; a; b]) = false /\ match_rar (p ++ [c; a; b]) = false.
Proof.
  intros D. unfold match_part, match_rar. rewrite rev_app_distr. cbn [rev app]. change RAR_REV with (rev (str ".rar")).
  assert (X : forall q r, istarts (114 :: q) (b :: r) = false). { intros q r. unfold istarts. cbn [starts_with]. unfold VolName.lower1, is_digit in *. destruct ((65 <=? b) && (b <=? 90)) eqn:E; [lia|]. replace (114 =? b) with false by lia. reflexivity. }
  split; [|exact (X _ _)]. change (rev (str "rar")) with (114 :: [97; 114]). now rewrite X.
Qed.
Lemma inc_digits r r' a b : inc_rev (b :: a :: r) = Ok r' -> is_digit a -> is_digit b -> exists q a' b', r' = b' :: a' :: q /\ is_digit b'.
Proof.
  cbn [inc_rev]. intros H Da Db. unfold is_digit in *. destruct (N.eqb_spec b 57).
  - destruct (N.eqb_spec a 57); bindinv H; apply ok_inj in H; subst r'.
    + bindinv E. apply ok_inj in E. subst. eexists _, 48, 48. split; [reflexivity|lia].
    + destruct (a + 1 <? 0x110000); [|discriminate]. apply ok_inj in E. subst. exists r, (a + 1), 48. split; [reflexivity|lia].
  - destruct (b + 1 <? 0x110000); [|discriminate]. apply ok_inj in H. subst. exists r, a, (b + 1). split; [reflexivity|lia].
Qed.
Lemma next_ahead old t t' : next_archive t old = Ok t' -> ahead old t t'.
Proof.
  unfold next_archive. destruct (match_part t && negb old) eqn:A.
  - intros H. bindinv H. apply ok_inj in H. apply andb_true_iff in A as [A O]. destruct (part_dot t A) as [D E0]. destruct (inc_lt _ _ D E) as (L & X & _). unfold ahead, phase. rewrite A, O. cbn [andb].
    destruct (match_part t' && true) eqn:P; [right; split; [reflexivity|]|destruct (match_rar t'); left; lia]. rewrite E0 at 1. subst t'. now apply text_lt_app.
  - destruct (match_rar t) eqn:R.
    + intros H. apply ok_inj in H. left. unfold phase. rewrite A, R. subst t'. destruct (rar_end_digits (cut_end 4 t ++ [46]) 114 48 48) as [P1 P2]; [unfold is_digit; lia|]. rewrite <- app_assoc in P1, P2. cbn [app] in P1, P2. change (str ".r00") with [46; 114; 48; 48]. rewrite P1, P2. cbn [andb]. lia.
    + destruct (is_rar t) eqn:I; cbn [negb]; [|discriminate]. intros H. unfold is_rar in I. rewrite R in I. cbn [orb] in I. destruct (rev t) as [|c3 [|c2 [|c1 [|d r]]]] eqn:Rv; try discriminate.
      apply andb_true_iff in I as [I _]. apply andb_true_iff in I as [I D2]. apply andb_true_iff in I as [Dd D3]. apply N.eqb_eq in Dd. subst d. apply digit_iff in D2, D3.
      assert (D : In 46 t) by (apply in_rev; rewrite Rv; do 3 right; now left). destruct (inc_lt _ _ D H) as (L & X & r' & E & Er). rewrite Rv in E. destruct (inc_digits _ _ _ _ E D2 D3) as (q & a' & b' & Eq & Db). unfold ahead. right. split; [|exact X].
      assert (Lq : (0 < length q)%nat). { apply (f_equal (@length N)) in Er, Eq, Rv. rewrite rev_length in Er, Rv. cbn [length] in *. lia. } destruct q as [|x q]; [cbn in Lq; lia|].
      destruct (rar_end_digits (rev q) x a' b' Db) as [P1 P2]. assert (Et : t' = rev q ++ [x; a'; b']) by (rewrite Er, Eq; cbn [rev]; now rewrite <- !app_assoc). unfold phase. rewrite A, R, Et, P1, P2. reflexivity.
Qed.

(** ** The walk *)
Lemma there_disk f p : on_disk f p = true <-> there f p.
Proof. unfold on_disk, there. destruct (fs_get f p); split; congruence. Qed.
Lemma there_in f p : there f p -> In p (map fst f).
Proof.
  unfold there. induction f as [|[q d] f IH]; cbn [fs_get map fst]; [congruence|]. destruct (teqb q p) eqn:E; [apply teqb_eq in E; intros _; now left|]. intros H. right. now apply IH.
Qed.
Lemma walk_ok f old fuel : forall t seen, (length f <= fuel + length seen)%nat -> NoDup seen -> (forall x, In x seen -> there f x /\ ahead old x t) ->
  match walk fuel (on_disk f) old t with
  | Ok l => NoDup l /\ (forall x, In x l -> there f x /\ (x = t \/ ahead old t x)) /\ (there f t -> exists r, l = t :: r)
  | Err e => e = AttributeError \/ e = ValueError \/ e = IndexError end.
Proof.
  induction fuel as [|fuel IH]; intros t seen L N S; cbn [walk]; destruct (on_disk f t) eqn:D.
  - exfalso. apply there_disk in D. assert (ND : NoDup (t :: seen)) by (constructor; [intros I; apply S in I as [_ I]; exact (ahead_irr _ _ I)|exact N]).
    assert (I : incl (t :: seen) (map fst f)) by (intros x [<-|H]; [now apply there_in|apply there_in; now apply S]). pose proof (NoDup_incl_length ND I) as X. rewrite map_length in X. cbn [length] in X. lia.
  - split; [constructor|]. split; [intros x []|]. intros H. apply there_disk in H. congruence.
  - apply there_disk in D. destruct (next_archive t old) as [t'|e] eqn:E; cbn [bind].
    + pose proof (next_ahead _ _ _ E) as A. specialize (IH t' (t :: seen)). destruct (walk fuel (on_disk f) old t') as [l|e]; cbn [bind].
      * destruct IH as (Nl & Sl & _); [cbn [length]; lia|constructor; [intros I; apply S in I as [_ I]; exact (ahead_irr _ _ I)|exact N]|intros x [<-|H]; [now split|]; apply S in H as [H1 H2]; split; [exact H1|now apply (ahead_trans _ _ t)]|].
        assert (Al : forall x, In x l -> ahead old t x). { intros x H. apply Sl in H as [_ [->|H]]; [exact A|now apply (ahead_trans _ _ t')]. }
        split; [constructor; [intros H; exact (ahead_irr _ _ (Al _ H))|exact Nl]|]. split; [intros x [<-|H]; [split; [exact D|now left]|split; [now apply Sl|right; now apply Al]]|]. intros _. now exists l.
      * apply IH; [cbn [length]; lia|constructor; [intros I; apply S in I as [_ I]; exact (ahead_irr _ _ I)|exact N]|intros x [<-|H]; [now split|]; apply S in H as [H1 H2]; split; [exact H1|now apply (ahead_trans _ _ t)]].
    + clear - E. unfold next_archive, inc in E. destruct (_ && _); [|destruct (match_rar t); [discriminate|]; destruct (is_rar t); [|cbn [negb] in E; injection E as <-; now left]; cbn [negb] in E];
        (destruct (rev _); [cbn [bind] in E; injection E as <-; auto|]; destruct (forallb _ _); [discriminate|]; destruct (inc_rev _) as [x|e'] eqn:I; [discriminate|]; cbn [bind] in E; injection E as <-;
         assert (X : e' = ValueError); [|subst; auto]; clear - I; revert e' I; generalize (n :: l); induction l0 as [|c r IH]; intros e' I; cbn [inc_rev] in I; [discriminate|]; destruct (c =? 57); [destruct (inc_rev r) as [?|e2]; [discriminate|]; cbn [bind] in I; injection I as <-; now apply IH|destruct (_ <? _); [discriminate|now injection I]]).
  - split; [constructor|]. split; [intros x []|]. intros H. apply there_disk in H. congruence.
Qed.
Lemma walk_set f s old n : style_ok s -> told s old -> N.of_nat n < vol_limit s -> first_n f s n -> forall k i fuel, (i + k = n)%nat -> (k <= fuel)%nat ->
  walk fuel (on_disk f) old (vol_name s (N.of_nat i)) = Ok (map (fun i => vol_name s (N.of_nat i)) (seq i k)).
Proof.
  intros Hs Ht Hl [Hi Hn]. induction k as [|k IH]; intros i fuel E F.
  - replace i with n by lia. assert (D : on_disk f (vol_name s (N.of_nat n)) = false) by (destruct (on_disk f _) eqn:D; [apply there_disk in D; contradiction|reflexivity]). destruct fuel; cbn [walk]; now rewrite D.
  - destruct fuel as [|fuel]; [lia|]. cbn [walk]. rewrite (proj2 (there_disk f _) (Hi i ltac:(lia))). rewrite next_name by (auto; lia). cbn [bind]. replace (N.of_nat i + 1) with (N.of_nat (S i)) by lia. rewrite IH by lia. reflexivity.
Qed.
Lemma set_len f s n : style_ok s -> N.of_nat n < vol_limit s -> first_n f s n -> (n <= length f)%nat.
Proof.
  intros Hs Hl [Hi _]. assert (ND : NoDup (vol_names s n)).
  { apply vol_names_NoDup; [exact Hs|lia]. }
  assert (I : incl (vol_names s n) (map fst f)). { intros x H. apply in_map_iff in H as (i & <- & H). apply in_seq in H. apply there_in, Hi. lia. }
  pose proof (NoDup_incl_length ND I) as X. unfold vol_names in X. now rewrite !map_length, seq_length in X.
Qed.

(** ** Volumes from the first one *)
Lemma has_bit n k : has n (2 ^ k) = N.testbit n k.
Proof.
  unfold has. destruct (N.testbit n k) eqn:T.
  - apply negb_true_iff, N.eqb_neq. intros E. apply (f_equal (fun x => N.testbit x k)) in E. rewrite N.land_spec, T, N.pow2_bits_true, N.bits_0 in E. discriminate.
  - apply negb_false_iff, N.eqb_eq, N.bits_inj. intros j. rewrite N.land_spec, N.bits_0, N.pow2_bits_eqb. destruct (N.eqb_spec k j) as [->|]; [now rewrite T|apply andb_false_r].
Qed.
Lemma old_ok bs : forall o r, old_style o bs = Ok r -> (exists a b c, bs = a ++ b :: c /\ in_set b /\ Forall (fun x => ~ in_set x) c /\ r = negb (N.testbit (b_flags b) 4)) \/ (Forall (fun x => ~ in_set x) bs /\ r = o).
Proof.
  induction bs as [|b bs IH]; intros o r H; cbn [old_style] in H; [apply ok_inj in H; right; split; [constructor|now symmetry]|].
  assert (X : forall o', (in_set b -> o' = negb (N.testbit (b_flags b) 4)) -> (~ in_set b -> o' = o) -> old_style o' bs = Ok r ->
    (exists x y c, b :: bs = x ++ y :: c /\ in_set y /\ Forall (fun x => ~ in_set x) c /\ r = negb (N.testbit (b_flags y) 4)) \/ (Forall (fun x => ~ in_set x) (b :: bs) /\ r = o)).
  { intros o' Y Z E. destruct (IH _ _ E) as [(x & y & c & -> & I & F & R)|[F R]]; [left; exists (b :: x), y, c; auto|]. unfold in_set in *. destruct (N.eq_dec (b_type b) T_RarVolume) as [T|T]; [destruct (N.testbit (b_flags b) 0) eqn:V|].
    - left. exists [], b, bs. split; [reflexivity|]. split; [now split|]. split; [exact F|]. subst r. apply Y. now split.
    - right. split; [constructor; [intros [_ ?]; congruence|exact F]|]. subst r. apply Z. intros [_ ?]. congruence.
    - right. split; [constructor; [intros [? _]; congruence|exact F]|]. subst r. apply Z. intros [? _]. congruence. }
  destruct (N.eqb_spec (b_type b) T_RarVolume) as [T|T].
  - destruct (b_kind b); try discriminate. apply X in H; [exact H| |].
    + intros [_ V]. change F_VOLUME with (2 ^ 0). change F_NEW_NUMBERING with (2 ^ 4). now rewrite !has_bit, V.
    + intros V. change F_VOLUME with (2 ^ 0). rewrite has_bit. destruct (N.testbit (b_flags b) 0) eqn:B; [exfalso; apply V; now split|reflexivity].
  - apply X in H; [exact H| |reflexivity]. intros [? _]. congruence.
Qed.
Lemma numbering_fun bs a b : numbering bs a -> numbering bs b -> a = b.
Proof.
  intros [(x & p & y & -> & I & F & ->)|[F ->]] [(x' & p' & y' & E & I' & F' & ->)|[F' ->]].
  - assert (p = p'); [|now subst]. revert x' E. induction x as [|c x IH]; intros [|c' x'] E; cbn [app] in E.
    + now injection E.
    + injection E as <- ->. exfalso. rewrite Forall_forall in F. apply (F p'); [|exact I']. apply in_app_iff. right. now left.
    + injection E as -> <-. exfalso. rewrite Forall_forall in F'. apply (F' p); [|exact I]. apply in_app_iff. right. now left.
    + injection E as _ E. now apply (IH x').
  - exfalso. rewrite Forall_forall in F'. apply (F' p); [|exact I]. apply in_app_iff. right. now left.
  - exfalso. subst bs. rewrite Forall_forall in F. apply (F p'); [|exact I']. apply in_app_iff. right. now left.
  - reflexivity.
Qed.
Lemma rar_set f s n d bs old : style_ok s -> (0 < n)%nat -> N.of_nat n < vol_limit s -> first_n f s n ->
  fs_get f (vol_name s 0) = Some d -> read_all d = Ok bs -> (forall b, In b bs -> b_type b = T_RarVolume -> exists x y, b_kind b = KVolume x y) -> numbering bs old -> told s old ->
  handle_rar f (vol_name s 0) = Ok (vol_names s n).
Proof.
  intros Hs Hn Hl Hf Hd Hr Hk Ho Ht. unfold handle_rar, reader_usenet, read_archive. rewrite Hd, Hr. cbn [bind].
  assert (O : exists o, old_style false bs = Ok o). { generalize false. clear - Hk. induction bs as [|b bs IH]; intros o; cbn [old_style]; [now exists o|]. specialize (IH (fun b' I => Hk b' (or_intror I))). destruct (N.eqb_spec (b_type b) T_RarVolume) as [T|T]; [|apply IH]. destruct (Hk b (or_introl eq_refl) T) as (x & y & ->). apply IH. }
  destruct O as (o & O). rewrite O. cbn [bind]. assert (o = old). { apply (numbering_fun bs); [|exact Ho]. destruct (old_ok _ _ _ O) as [X|X]; [now left|now right]. } subst o.
  rewrite (first_one s 1 [vol_name s 0] Hs) by (try lia; apply Permutation_refl). rewrite teqb_refl. apply (walk_set f s old n Hs Ht Hl Hf n 0 (length f)); [lia|]. now apply (set_len f s n).
Qed.
Lemma rar_any f r l : handle_rar f r = Ok l -> NoDup l /\ (forall x, In x l -> there f x) /\ exists t, l = r :: t.
Proof.
  unfold handle_rar. intros H. bindinv H. bindinv H. rename v0 into o. assert (T : there f r). { unfold there. intros N. unfold reader_usenet, read_archive in E. rewrite N in E. discriminate. }
  destruct (first_rars [r]) as [|q [|? ?]]; try discriminate. destruct (teqb q r); [|discriminate]. pose proof (walk_ok f o (length f) r [] ltac:(cbn; lia) (NoDup_nil _) ltac:(intros ? [])) as W. rewrite H in W. destruct W as (N & S & X). split; [exact N|]. split; [intros x I; now apply S|now apply X].
Qed.
Lemma rar_ends f r : handle_rar f r <> Err OutOfFuel.
Proof.
  unfold handle_rar, reader_usenet, read_archive. destruct (fs_get f r) as [d|]; [|discriminate]. pose proof (proj1 (read_all_ends d)) as T. destruct (read_all d) as [bs|e] eqn:R.
  - cbn [bind]. destruct (old_style false bs) as [o|e] eqn:O; cbn [bind].
    + destruct (first_rars [r]) as [|q [|? ?]]; try discriminate. destruct (teqb q r); [|discriminate]. pose proof (walk_ok f o (length f) r [] ltac:(cbn; lia) (NoDup_nil _) ltac:(intros ? [])) as W. destruct (walk _ _ _ _); [discriminate|]. destruct W as [->|[->| ->]]; discriminate.
    + intros X. injection X as ->. clear - O. revert O. generalize false. induction bs as [|b bs IH]; intros o O; cbn [old_style] in O; [discriminate|]. destruct (_ =? _); [destruct (b_kind b); try discriminate|]; now apply IH in O.
  - destruct e; try discriminate. now destruct T.
Qed.

(** ** Not the first *)
Lemma first_not p c a b : is_digit a -> is_digit b -> ~ (is_digit c /\ 10 * (10 * (c - 48) + (a - 48)) + (b - 48) < 2) -> first_rars [p ++ [46; c; a; b]] = [].
Proof.
  intros Da Db Hc. set (t := p ++ [46; c; a; b]). destruct (rar_end_digits (p ++ [46]) c a b Db) as [_ R]. rewrite <- app_assoc in R. change (match_rar t = false) in R.
  assert (E : forall x y z, VolName.ends_with [46; x; y; z] t = true -> x = c /\ y = a /\ z = b).
  { intros x y z H. apply VolFacts.ends_with_spec in H as (q & H). unfold t in H. apply (f_equal (@rev N)) in H. rewrite !rev_app_distr in H. cbn [rev app] in H. injection H as -> -> -> _. auto. }
  assert (F : is_first t = false).
  { unfold is_first. unfold match_rar in R. rewrite R. cbn [andb orb]. apply orb_false_iff. unfold is_digit in *. split; match goal with |- VolName.ends_with ?e t = false => destruct (VolName.ends_with e t) eqn:X; [|reflexivity] end; [apply (E 48 48 48) in X as (<- & <- & <-)|apply (E 48 48 49) in X as (<- & <- & <-)]; exfalso; apply Hc; lia. }
  unfold first_rars. cbn [filter]. rewrite F. cbn [length drop_001]. assert (L : VolName.ends_with (str ".rar") (VolName.lower t) = false).
  { destruct (VolName.ends_with _ _) eqn:X; [|reflexivity]. apply VolFacts.ends_with_spec in X as (q & X). unfold VolName.lower, t in X. rewrite map_app in X. apply (f_equal (@rev N)) in X. rewrite !rev_app_distr in X. cbn [map rev app] in X. change (rev (str ".rar")) with [114; 97; 114; 46] in X. injection X as X _. unfold VolName.lower1, is_digit in *. destruct (_ && _) eqn:Y in X; lia. }
  unfold VolName.lower in L. cbn [filter]. match goal with |- context [VolName.ends_with (str ".rar") ?x] => replace (VolName.ends_with (str ".rar") x) with false by (symmetry; exact L) end. reflexivity.
Qed.
Lemma later_refused f r : first_rars [r] = [] -> exists e, handle_rar f r = Err e.
Proof. intros F. unfold handle_rar. rewrite F. destruct (reader_usenet f r) as [bs|e]; cbn [bind]; [|now exists e]. destruct (old_style false bs) as [o|e]; cbn [bind]; [now exists ValueError|now exists e]. Qed.
Lemma first_refused f s i : style_ok s -> i < vol_limit s -> counted_from s i -> exists e, handle_rar f (vol_name s i) = Err e.
Proof.
  intros Hs Hl Hi. apply later_refused. destruct s as [base rar|base part rar k|base start]; cbn [counted_from vol_limit vol_name style_ok] in *; [|destruct Hi|].
  - destruct (N.eqb_spec i 0); [lia|]. assert (M : (i - 1) mod 100 < 100) by (apply N.mod_lt; lia). rewrite dec2_99 by exact M. change ([46; 114 + (i - 1) / 100] ++ ?x) with (46 :: 114 + (i - 1) / 100 :: x).
    assert ((i - 1) mod 100 / 10 < 10) by (apply N.div_lt_upper_bound; lia). assert ((i - 1) mod 100 mod 10 < 10) by (apply N.mod_lt; lia). apply first_not; unfold is_digit; [lia|lia|]. intros [? _]. lia.
  - assert (B : start + i < 1000) by lia. set (n := start + i) in *. assert (D : dec 3 n = [48 + n / 10 / 10; 48 + (n / 10) mod 10; 48 + n mod 10]).
    { cbn [dec app]. rewrite (N.mod_small (n / 10 / 10) 10) by (apply N.div_lt_upper_bound; [lia|]; apply N.div_lt_upper_bound; lia). reflexivity. }
    rewrite D. cbn [app]. pose proof (N.div_mod' n 10). pose proof (N.div_mod' (n / 10) 10). pose proof (N.mod_lt n 10 ltac:(lia)). pose proof (N.mod_lt (n / 10) 10 ltac:(lia)). apply first_not; unfold is_digit; [lia|lia|]. intros [_ X]. lia.
Qed.

(** ** SFV files *)
Lemma same_k x y k : same_letter x y -> k < 128 -> (k =? VolName.lower1 x) = (k =? VolName.lower1 y).
Proof. unfold same_letter, capital, VolName.lower1. intros H K. destruct ((65 <=? x) && (x <=? 90)) eqn:E, ((65 <=? y) && (y <=? 90)) eqn:F; lia. Qed.
Lemma istarts_same p : Forall (fun k => k < 128) p -> forall r r', Forall2 same_letter r r' -> istarts p r = istarts p r'.
Proof.
  unfold istarts. induction 1 as [|k p K _ IH]; intros r r' H; [reflexivity|]. destruct H as [|x y r r' X H]; cbn [starts_with]; [reflexivity|]. now rewrite (same_k x y k X K), (IH _ _ H).
Qed.
Lemma Forall2_rev {X} (R : X -> X -> Prop) a b : Forall2 R a b -> Forall2 R (rev a) (rev b).
Proof. induction 1; cbn [rev]; [constructor|]. apply Forall2_app; [assumption|now repeat constructor]. Qed.
Lemma same_rar a b : same_text a b -> is_rar a = is_rar b.
Proof.
  intros H. apply Forall2_rev in H. unfold is_rar, match_rar. rewrite (istarts_same RAR_REV ltac:(repeat constructor) _ _ H). f_equal.
  assert (X : forall x y, same_letter x y -> VolName.digit x = VolName.digit y /\ (x =? 46) = (y =? 46) /\ ((114 <=? VolName.lower1 x) && (VolName.lower1 x <=? 122)) = ((114 <=? VolName.lower1 y) && (VolName.lower1 y <=? 122))).
  { intros x y. unfold same_letter, capital, VolName.lower1, VolName.digit. intros S. destruct ((65 <=? x) && (x <=? 90)) eqn:E, ((65 <=? y) && (y <=? 90)) eqn:F; lia. }
  destruct H as [|x1 y1 ? ? H1 H]; [reflexivity|]. destruct H as [|x2 y2 ? ? H2 H]; [reflexivity|]. destruct H as [|x3 y3 ? ? H3 H]; [reflexivity|]. destruct H as [|x4 y4 ? ? H4 H]; [reflexivity|].
  destruct (X _ _ H1) as (-> & _ & _). destruct (X _ _ H2) as (-> & _ & _). destruct (X _ _ H3) as (-> & _ & ->). destruct (X _ _ H4) as (_ & -> & _). reflexivity.
Qed.
Lemma filter_sub l e : In e (filter_sfv_duplicates l) -> In e l.
Proof.
  intros H. unfold filter_sfv_duplicates in H. assert (S : forall x, In x (sort_sfv l) -> In x l).
  { clear. induction l as [|y l IH]; intros x H; [exact H|]. cbn [sort_sfv fold_right] in H. assert (I : forall m, In x (insert y m) -> x = y \/ In x m). { induction m as [|z m IHm]; cbn [insert]; [intros [->|[]]; now left|]. destruct (sfv_lt z y); intros [->|J]; [right; now left| |now left|now right]. apply IHm in J as [J|J]; [now left|right; now right]. }
    apply I in H as [->|H]; [now left|right; now apply IH]. }
  apply S. clear S. revert H. generalize (@None sfv). induction (sort_sfv l) as [|x m IH]; intros o H; cbn [drop_dups] in H; [destruct H|]. destruct o as [p|]; [destruct (sfv_eq x p)|]; try (destruct H as [->|H]; [now left|]); right; now apply IH in H.
Qed.
Lemma parsed_hex data es cs rs : parse_sfv_data data = Ok (es, cs, rs) -> Forall (fun e => Forall hex_char (e_crc e)) es.
Proof.
  intros H. destruct (sfv_thm data) as (es' & cs' & rs' & ls & H' & _ & A). rewrite H in H'. injection H' as <- <- <-. clear H. induction A as [|l ls es cs rs B A IH|l ls es cs rs B A IH|l ls es cs rs name crc B L A IH|]; try assumption; [constructor|].
  constructor; [|exact IH]. destruct L as (pre & sep & w & d & tr & u & n & _ & _ & _ & D & _ & _ & _ & _ & _ & ->). cbn [e_crc]. apply Forall_app. split; [|exact D]. apply Forall_forall. intros x X. apply repeat_spec in X. subst x. left. unfold is_digit. lia.
Qed.
Lemma filter_id {X} (p : X -> bool) l : (forall x, In x l -> p x = true) -> filter p l = l.
Proof. induction l as [|x l IH]; intros H; [reflexivity|]. cbn [filter]. rewrite (H x (or_introl eq_refl)), IH; [reflexivity|]. intros y Y. apply H. now right. Qed.
Section Sfv.
Variables (f : fs) (sfile : text) (data : bytes) (es : list sfv) (cs rs : list text).
Hypotheses (Hd : fs_get f sfile = Some data) (Hp : parse_sfv_data data = Ok (es, cs, rs)).
Lemma sfv_empty : handle_sfv f sfile = Err EmptySfv <-> es = [].
Proof using Hd Hp. unfold handle_sfv, sfv_file. rewrite Hd, Hp. cbn [bind]. destruct es; split; congruence. Qed.
Lemma sfv_any l : handle_sfv f sfile = Ok l ->
  (forall e, In e es -> rar_ending (e_name e) -> exists n, same_text (e_name e) n /\ In (pjoin (dirname sfile) n) l) /\
  (forall p, In p l -> exists e, In e es /\ rar_ending (e_name e) /\ p = pjoin (dirname sfile) (e_name e)).
Proof using Hd Hp.
  unfold handle_sfv, sfv_file. rewrite Hd, Hp. cbn [bind]. destruct es as [|e0 es'] eqn:Ees; [discriminate|]. intros H. apply ok_inj in H. subst l. split.
  - intros e I R. destruct (filter_all (e0 :: es') e I) as (e' & I' & S & _). exists (e_name e'). split; [exact S|]. apply in_map_iff. exists e'. split; [reflexivity|]. apply filter_In. split; [exact I'|]. rewrite <- (same_rar _ _ S). now apply is_rar_spec.
  - intros p H. apply in_map_iff in H as (e & <- & H). apply filter_In in H as [I R]. exists e. split; [now apply filter_sub|]. split; [now apply is_rar_spec|reflexivity].
Qed.
Lemma sfv_set s n : style_ok s -> (0 < n)%nat -> N.of_nat n <= vol_limit s -> sfv_of_set s n es -> handle_sfv f sfile = Ok (map (pjoin (dirname sfile)) (vol_names s n)).
Proof using Hd Hp.
  intros Hs Hn Hl Hset. destruct (filter_set s n es Hs Hl Hset (parsed_hex _ _ _ _ Hp)) as [E _]. unfold handle_sfv, sfv_file. rewrite Hd, Hp. cbn [bind]. destruct es as [|e0 es'] eqn:Ees.
  - exfalso. destruct Hset as [X _]. apply (X (vol_name s 0)). unfold vol_names. apply in_map_iff. exists 0%nat. split; [reflexivity|]. apply in_seq. lia.
  - f_equal. rewrite <- E, map_map. rewrite filter_id; [reflexivity|]. intros e I. apply (in_map e_name) in I. rewrite E in I. apply in_map_iff in I as (i & <- & I). apply in_seq in I. apply name_rar; [exact Hs|lia].
Qed.
End Sfv.
Lemma sfv_name sfile : (exists p e, sfile = p ++ e /\ up_to_case e (str ".sfv")) -> is_sfv sfile = true.
Proof.
  intros (p & e & -> & U). unfold is_sfv. apply VolFacts.ends_with_spec. exists (lower p). unfold lower. rewrite map_app. f_equal. clear p. assert (X : forall s, Forall (fun c => 97 <= c <= 122 \/ c = 46) s -> forall e, up_to_case e s -> map lower1 e = s).
  { induction 1 as [|c s C _ IH]; intros e' V; inversion V as [|a b e2 s2 A V']; subst; [reflexivity|]. cbn [map]. rewrite (IH _ V'). f_equal. unfold lower1. destruct (_ && _) eqn:E; lia. }
  apply X; [|exact U]. apply Forall_forall. intros c H. vm_compute in H. lia.
Qed.
Lemma collect_sets f infiles sets : Forall2 (sfv_for f) infiles sets ->
  collect f infiles = Ok (concat (map (fun x => map (pjoin (dirname (fst x))) (vol_names (fst (snd x)) (snd (snd x)))) (combine infiles sets))).
Proof.
  induction 1 as [|i [s n] infiles sets (Hi & Hs & Hn & Hl & data & es & cs & rs & Hd & Hp & Hset) _ IH]; [reflexivity|]. cbn [collect combine map concat fst snd] in *. rewrite (sfv_name _ Hi), (sfv_set f i data es cs rs Hd Hp s n Hs Hn Hl Hset), IH. reflexivity.
Qed.
