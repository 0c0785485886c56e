(** SfvSortFacts: the order of SFV entries. *)
From Coq Require Import Permutation Sorted.
From Verif Require Import Base BaseFacts VolName VolSpec VolFacts Sfv SfvSpec SfvFacts.

(** ** Comparing texts *)
Lemma text_lt_prefix p a b : text_lt (p ++ a) (p ++ b) = text_lt a b.
Proof. induction p as [|c p IH]; [reflexivity|]. cbn [app text_lt]. rewrite N.ltb_irrefl, N.eqb_refl. exact IH. Qed.
Lemma text_lt_irrefl a : text_lt a a = false.
Proof. induction a as [|c a IH]; [reflexivity|]. cbn [text_lt]. now rewrite N.ltb_irrefl, N.eqb_refl. Qed.
Lemma text_lt_app x : forall y u v, length x = length y -> text_lt x y = true -> text_lt (x ++ u) (y ++ v) = true.
Proof.
  induction x as [|c x IH]; intros [|d y] u v L H; try discriminate. cbn [app text_lt] in *. injection L as L.
  destruct (c <? d); [reflexivity|]. cbn [orb] in *. apply andb_true_iff in H as [-> H]. now rewrite IH.
Qed.
Lemma text_lt_asym a : forall b, text_lt a b = true -> text_lt b a = false.
Proof.
  induction a as [|c a IH]; intros [|d b] H; try discriminate; [reflexivity|]. cbn [text_lt] in *.
  destruct (N.ltb_spec c d) as [Hc|Hc].
  - replace (d <? c) with false by lia. replace (d =? c) with false by lia. reflexivity.
  - cbn [orb] in H. apply andb_true_iff in H as [E H]. rewrite (IH _ H), andb_false_r. replace (d <? c) with false by lia. reflexivity.
Qed.
Lemma text_lt_total a : forall b, a <> b -> text_lt a b = true \/ text_lt b a = true.
Proof.
  induction a as [|c a IH]; intros [|d b] H; [congruence|now left|now right|]. cbn [text_lt]. destruct (N.lt_trichotomy c d) as [X|[->|X]].
  - left. replace (c <? d) with true by lia. reflexivity.
  - rewrite N.ltb_irrefl, N.eqb_refl. cbn [orb andb]. apply IH. congruence.
  - right. replace (d <? c) with true by lia. reflexivity.
Qed.
Lemma dec_lt k : forall n m, n < m -> m < 10 ^ N.of_nat k -> text_lt (dec k n) (dec k m) = true.
Proof.
  induction k as [|k IH]; intros n m H Hm.
  - change (10 ^ N.of_nat 0) with 1 in Hm. lia.
  - cbn [dec]. assert (P : 10 ^ N.of_nat (S k) = 10 * 10 ^ N.of_nat k) by (rewrite Nat2N.inj_succ, N.pow_succ_r'; reflexivity). rewrite P in Hm.
    destruct (N.eq_dec (n / 10) (m / 10)) as [E|E].
    + rewrite E, text_lt_prefix. cbn [text_lt]. replace (48 + n mod 10 <? 48 + m mod 10) with true; [reflexivity|].
      assert (n = 10 * (n / 10) + n mod 10) by (apply N.div_mod'). assert (m = 10 * (m / 10) + m mod 10) by (apply N.div_mod'). rewrite E in *. lia.
    + apply text_lt_app; [now rewrite !dec_len|]. apply IH; [|apply N.div_lt_upper_bound; lia].
      assert (n / 10 <= m / 10) by (apply N.div_le_mono; lia). lia.
Qed.

(** ** Extensions *)
Lemma last4 p a : length a = 4%nat -> last_part 4 (p ++ a) = a /\ cut_end 4 (p ++ a) = p.
Proof.
  intros H. unfold last_part, cut_end. rewrite rev_app_distr. assert (L : 4 = lenN (rev a)) by (rewrite lenN_length, rev_length, H; reflexivity).
  rewrite takeN_app_exact, dropN_app_exact by exact L. now rewrite !rev_involutive.
Qed.
Lemma low_rar rar : up_to_case rar (str ".rar") -> low rar = str ".rar".
Proof.
  intros H. change (str ".rar") with (low (str ".rar")). induction H as [|a b t u Hab H IH]; [reflexivity|]. unfold low in *. cbn [map]. f_equal; [|exact IH].
  destruct Hab as [->|[Ha ->]]; [reflexivity|]. unfold low1. repeat match goal with |- context[if ?c then _ else _] => destruct c eqn:? end; lia.
Qed.
Definition ext (e : sfv) : text := low (last_part 4 (e_name e)).
Lemma lt_plain a b : (ext a = ext b \/ (ext a <> str ".rar" /\ ext b <> str ".rar")) -> sfv_lt a b = text_lt (e_name a) (e_name b).
Proof.
  intros H. unfold sfv_lt. fold (ext a) (ext b). destruct H as [H|[H1 H2]].
  - rewrite H, teqb_refl. cbn [negb]. rewrite andb_false_r. reflexivity.
  - apply teqb_neq in H1, H2. rewrite H1, H2. now destruct (_ && _).
Qed.

Lemma old_ext base i : i <> 0 -> i < 901 -> exists c, [46; 114 + (i - 1) / 100] ++ dec 2 ((i - 1) mod 100) = c /\ length c = 4%nat /\ low c = c /\ vol_ext c = true /\ c <> str ".rar" /\
  vol_name (Old base []) i = base ++ c.
Proof.
  intros H0 Hi. eexists. split; [reflexivity|]. assert (Hc : (i - 1) / 100 < 9) by (apply N.div_lt_upper_bound; lia). set (x := (i - 1) / 100) in *. set (m := (i - 1) mod 100) in *.
  assert (D : forall d, d < 10 -> low1 (48 + d) = 48 + d /\ digit (48 + d) = true).
  { intros d Hd. unfold low1, digit. split; [|lia]. repeat match goal with |- context[if ?c then _ else _] => destruct c eqn:? end; lia. }
  assert (L : low1 (114 + x) = 114 + x). { unfold low1. repeat match goal with |- context[if ?c then _ else _] => destruct c eqn:? end; lia. }
  assert (M1 : m mod 10 < 10) by (apply N.mod_lt; lia). assert (M2 : m / 10 mod 10 < 10) by (apply N.mod_lt; lia).
  cbn [dec app]. split; [reflexivity|]. split.
  - unfold low. cbn [map]. rewrite L, (proj1 (D _ M1)), (proj1 (D _ M2)). reflexivity.
  - split; [cbn [vol_ext]; rewrite (proj2 (D _ M1)), (proj2 (D _ M2)); lia|]. split.
    + intros E. change (str ".rar") with [46; 114; 97; 114] in E. injection E as _ E _. lia.
    + cbn [vol_name]. replace (i =? 0) with false by lia. reflexivity.
Qed.
Lemma vol_lt s i j a b : style_ok s -> i < j -> j < vol_limit s -> e_name a = vol_name s i -> e_name b = vol_name s j ->
  sfv_lt a b = true /\ sfv_lt b a = false.
Proof.
  intros Hs Hij Hj Ea Eb.
  assert (PL : text_lt (e_name a) (e_name b) = true -> (ext a = ext b \/ (ext a <> str ".rar" /\ ext b <> str ".rar")) -> sfv_lt a b = true /\ sfv_lt b a = false).
  { intros T H. rewrite !lt_plain; [|destruct H as [->|[? ?]]; auto|exact H]. split; [exact T|now apply text_lt_asym]. }
  destruct s as [base rar|base part rar k|base start]; cbn [style_ok vol_limit] in *.
  - destruct (old_ext base j) as (cj & Ec & Lj & Oj & Vj & Nj & _); [lia|lia|].
    assert (Enj : e_name b = base ++ cj) by (rewrite Eb; cbn [vol_name]; replace (j =? 0) with false by lia; now rewrite <- Ec).
    assert (Xj : ext b = cj) by (unfold ext; rewrite Enj, (proj1 (last4 _ _ Lj)); exact Oj).
    destruct (N.eq_dec i 0) as [->|Hi0].
    + cbn [vol_name] in Ea. change (0 =? 0) with true in Ea. cbv iota in Ea.
      assert (Lr : length rar = 4%nat) by (rewrite (up_to_case_len _ _ Hs); reflexivity).
      assert (Xi : ext a = str ".rar") by (unfold ext; rewrite Ea, (proj1 (last4 _ _ Lr)); now apply low_rar).
      unfold sfv_lt. fold (ext a) (ext b). rewrite Xi, Xj, Ea, Enj, (proj2 (last4 _ _ Lj)), (proj2 (last4 _ _ Lr)), teqb_refl.
      rewrite (proj2 (teqb_neq cj (str ".rar")) Nj), (proj2 (teqb_neq (str ".rar") cj) (not_eq_sym Nj)), teqb_refl, Vj. cbn [andb negb]. split; reflexivity.
    + destruct (old_ext base i) as (ci & Eci & Li & Oi & Vi & Ni & _); [lia|lia|].
      assert (Eni : e_name a = base ++ ci) by (rewrite Ea; cbn [vol_name]; replace (i =? 0) with false by lia; now rewrite <- Eci).
      apply PL.
      * rewrite Eni, Enj, text_lt_prefix, <- Eci, <- Ec. cbn [app text_lt]. rewrite N.ltb_irrefl, N.eqb_refl. cbn [orb andb].
        destruct (N.ltb_spec (114 + (i - 1) / 100) (114 + (j - 1) / 100)) as [|Hge]; [reflexivity|]. cbn [orb].
        assert (Hle : (i - 1) / 100 <= (j - 1) / 100) by (apply N.div_le_mono; lia).
        assert (Eq : (i - 1) / 100 = (j - 1) / 100) by lia. rewrite Eq, N.eqb_refl. cbn [andb]. apply dec_lt.
        -- assert (i - 1 = 100 * ((i - 1) / 100) + (i - 1) mod 100) by apply N.div_mod'. assert (j - 1 = 100 * ((j - 1) / 100) + (j - 1) mod 100) by apply N.div_mod'. rewrite Eq in *. lia.
        -- change (10 ^ N.of_nat 2) with 100. apply N.mod_lt. lia.
      * right. rewrite Xj. unfold ext. rewrite Eni, (proj1 (last4 _ _ Li)), Oi. auto.
  - destruct Hs as [Hp Hr]. assert (Lr : length rar = 4%nat) by (rewrite (up_to_case_len _ _ Hr); reflexivity). cbn [vol_name] in Ea, Eb. apply PL.
    + rewrite Ea, Eb, text_lt_prefix, text_lt_prefix. apply text_lt_app; [now rewrite !dec_len|]. apply dec_lt; lia.
    + left. unfold ext. rewrite Ea, Eb, !app_assoc, !(fun p => proj1 (last4 p rar Lr)). reflexivity.
  - cbn [vol_name] in Ea, Eb. apply PL.
    + rewrite Ea, Eb, text_lt_prefix, text_lt_prefix. apply dec_lt; [lia|]. change (10 ^ N.of_nat 3) with 1000. lia.
    + right. assert (G : forall e n, e_name e = base ++ [46] ++ dec 3 n -> ext e <> str ".rar").
      { intros e n En. unfold ext. rewrite En, (proj1 (last4 base ([46] ++ dec 3 n) ltac:(now rewrite app_length, dec_len))). cbn [dec app low map]. change (str ".rar") with [46; 114; 97; 114]. intros X. injection X as _ X _.
        assert (M : n / 10 / 10 mod 10 < 10) by (apply N.mod_lt; lia). unfold low1 in X. repeat match type of X with context[if ?c then _ else _] => destruct c eqn:? end; lia. }
      split; eapply G; eassumption.
Qed.
Lemma lt_same a b : e_name a = e_name b -> sfv_lt a b = false.
Proof. intros E. rewrite lt_plain; [rewrite E; apply text_lt_irrefl|]. left. unfold ext. now rewrite E. Qed.
Lemma low_vol s i j : style_ok s -> i < vol_limit s -> j < vol_limit s -> low (vol_name s i) = low (vol_name s j) -> i = j.
Proof.
  intros Hs Hi Hj E.
  assert (LD : forall k n, low (dec k n) = dec k n).
  { intros k n. pose proof (dec_digits k n) as H. unfold low. rewrite <- (map_id (dec k n)) at 2. apply map_ext_in. intros c Hc. rewrite Forall_forall in H. specialize (H c Hc). unfold is_digit in H. unfold low1.
    repeat match goal with |- context[if ?c then _ else _] => destruct c eqn:? end; lia. }
  destruct s as [base rar|base part rar k|base start]; cbn [style_ok vol_limit] in *.
  - assert (X : forall m, m <> 0 -> m < 901 -> low (vol_name (Old base rar) 0) <> low (vol_name (Old base rar) m)).
    { intros m H0 Hm. destruct (old_ext base m H0 Hm) as (c & Ec & _ & Oc & _ & Nc & _). cbn [vol_name]. change (0 =? 0) with true. replace (m =? 0) with false by lia. cbv iota. rewrite Ec. unfold low. rewrite !map_app.
      intros Q. apply app_inv_head in Q. fold (low rar) (low c) in Q. rewrite (low_rar _ Hs), Oc in Q. congruence. }
    destruct (N.eq_dec i 0) as [->|Hi0], (N.eq_dec j 0) as [->|Hj0]; [reflexivity|exfalso; now apply (X j)|exfalso; now apply (X i)|].
    destruct (old_ext base i Hi0 Hi) as (ci & Eci & _ & Oi & _ & _ & _). destruct (old_ext base j Hj0 Hj) as (cj & Ecj & _ & Oj & _ & _ & _).
    cbn [vol_name] in E. replace (i =? 0) with false in E by lia. replace (j =? 0) with false in E by lia. rewrite Eci, Ecj in E. unfold low in E. rewrite !map_app in E. apply app_inv_head in E. fold (low ci) (low cj) in E. rewrite Oi, Oj in E.
    apply (vol_name_inj (Old base rar) i j); [exact Hs|exact Hi|exact Hj|]. cbn [vol_name]. replace (i =? 0) with false by lia. replace (j =? 0) with false by lia. congruence.
  - cbn [vol_name] in E. unfold low in E. rewrite !map_app in E. do 2 apply app_inv_head in E. apply app_inv_tail in E. fold (low (dec k (i + 1))) (low (dec k (j + 1))) in E. rewrite !LD in E. apply dec_inj in E; lia.
  - cbn [vol_name] in E. unfold low in E. rewrite !map_app in E. do 2 apply app_inv_head in E. fold (low (dec 3 (start + i))) (low (dec 3 (start + j))) in E. rewrite !LD in E. apply dec_inj in E; change (10 ^ N.of_nat 3) with 1000; lia.
Qed.

(** ** Sorted lists of volumes *)
Lemma incr_unique l : forall m, StronglySorted N.lt l -> StronglySorted N.lt m -> (forall x, In x l <-> In x m) -> l = m.
Proof.
  induction l as [|x l IH]; intros m Hl Hm H.
  - destruct m as [|y m]; [reflexivity|]. exfalso. apply (H y). now left.
  - destruct m as [|y m]; [exfalso; apply (H x); now left|]. inversion Hl as [|? ? Hl1 Hl2]; inversion Hm as [|? ? Hm1 Hm2]; subst. rewrite Forall_forall in *.
    assert (x = y).
    { destruct (proj1 (H x) (or_introl eq_refl)) as [|X]; [auto|]. destruct (proj2 (H y) (or_introl eq_refl)) as [|Y]; [auto|]. apply Hm2 in X. apply Hl2 in Y. lia. }
    subst y. f_equal. apply IH; [assumption|assumption|]. intros z. split; intros Hz.
    + destruct (proj1 (H z) (or_intror Hz)) as [->|]; [|assumption]. apply Hl2 in Hz. lia.
    + destruct (proj2 (H z) (or_intror Hz)) as [->|]; [|assumption]. apply Hm2 in Hz. lia.
Qed.
Fixpoint dedup (prev : option N) (l : list N) : list N :=
  match l with
  | [] => []
  | i :: l' => match prev with
               | Some p => if i =? p then dedup (Some i) l' else i :: dedup (Some i) l'
               | None => i :: dedup (Some i) l'
               end
  end.
Fixpoint rising (l : list N) : Prop := match l with a :: ((b :: _) as l') => a <= b /\ rising l' | _ => True end.
Lemma dedup_lt l : forall p, rising (p :: l) -> Forall (N.lt p) (dedup (Some p) l) /\ StronglySorted N.lt (dedup (Some p) l).
Proof.
  induction l as [|i l IH]; intros p H; [repeat constructor|]. destruct H as [Hp H]. cbn [dedup]. destruct (IH i H) as [A B]. destruct (N.eqb_spec i p) as [->|Hne]; [auto|].
  split; [|now constructor]. constructor; [lia|]. eapply Forall_impl; [|exact A]. intros z. lia.
Qed.
Lemma dedup_In l : forall p x, In x (dedup p l) \/ p = Some x <-> In x l \/ p = Some x.
Proof.
  induction l as [|i l IH]; intros p x; [reflexivity|]. cbn [dedup]. specialize (IH (Some i) x).
  assert (Q : In x (dedup (Some i) l) \/ i = x <-> In x l \/ i = x). { split; intros [X|X]; subst; try (now right); destruct IH as [I1 I2]; [destruct (I1 (or_introl X)) as [|E]|destruct (I2 (or_introl X)) as [|E]]; try (now left); injection E as ->; now right. }
  destruct p as [p|].
  - destruct (N.eqb_spec i p) as [->|Hne]; cbn [In].
    + split.
      * intros [X|X]; [destruct (proj1 Q (or_introl X)) as [|]; auto|now right].
      * intros [[X|X]|X]; [subst; now right|destruct (proj2 Q (or_introl X)) as [|]; [now left|subst; now right]|now right].
    + split; intros [[X|X]|X]; auto; [destruct (proj1 Q (or_introl X)); auto|destruct (proj2 Q (or_introl X)); auto].
  - cbn [In]. split; (intros [[X|X]|X]; [auto| |discriminate]); [destruct (proj1 Q (or_introl X)); auto|destruct (proj2 Q (or_introl X)); auto].
Qed.
Lemma low_lower c d : length c = length d -> map small c = map small d -> Forall hex_char c -> Forall hex_char d -> low c = low d.
Proof.
  revert d. induction c as [|x c IH]; intros [|y d] L E Hc Hd; try discriminate; [reflexivity|]. unfold low in *. cbn [map] in *. injection E as E1 E2. injection L as L. inversion Hc; inversion Hd; subst.
  f_equal; [|now apply IH]. unfold small in E1. unfold hex_char, is_digit in *. unfold low1. repeat match goal with |- context[if ?c then _ else _] => destruct c eqn:? | H : context[if ?c then _ else _] |- _ => destruct c eqn:? end; lia.
Qed.

Section OneSet.
Variables (s : style) (n : nat).
Hypothesis Hs : style_ok s.
Hypothesis Hn : N.of_nat n <= vol_limit s.
Definition idx (e : sfv) (i : N) : Prop := i < N.of_nat n /\ e_name e = vol_name s i.
Lemma sorted_idx r : (forall i a b, nth_error r i = Some a -> nth_error r (S i) = Some b -> sfv_lt b a = false) ->
  Forall (fun e => In (e_name e) (vol_names s n)) r -> exists is, Forall2 idx r is /\ rising is.
Proof.
  induction r as [|e r IH]; intros Hr Hf; [exists []; split; [constructor|exact I]|]. apply Forall_cons_iff in Hf as [He Hf].
  destruct IH as (is & F & R); [intros i a b; apply (Hr (S i))|exact Hf|]. apply vol_names_In in He as (i & Hi & Ei). exists (i :: is). split; [constructor; [split; assumption|exact F]|].
  destruct F as [|b j r' is' [Hj Ej] F]; [exact I|]. split; [|exact R]. destruct (N.le_gt_cases i j) as [|Hgt]; [assumption|exfalso].
  assert (X := Hr 0%nat e b eq_refl eq_refl). destruct (vol_lt s j i b e Hs Hgt) as [Y _]; [lia|assumption|assumption|congruence].
Qed.
Lemma drop_dups_names r is : Forall2 idx r is -> (forall a b, In a r -> In b r -> e_name a = e_name b -> low (e_crc a) = low (e_crc b)) ->
  forall p k, (forall e, In e r -> e_name e = e_name p -> low (e_crc e) = low (e_crc p)) -> idx p k ->
  map e_name (drop_dups (Some p) r) = map (vol_name s) (dedup (Some k) is).
Proof.
  induction 1 as [|e i r is [Hi Ei] F IH]; intros Hc p k Hp [Hk Ek]; [reflexivity|]. cbn [drop_dups dedup].
  assert (IH' : map e_name (drop_dups (Some e) r) = map (vol_name s) (dedup (Some i) is)).
  { apply IH; [intros a b Ha Hb; apply Hc; now right|intros a Ha; apply Hc; [now right|now left]|split; assumption]. }
  unfold sfv_eq. destruct (N.eqb_spec i k) as [->|Hne].
  - rewrite Ei, Ek, teqb_refl. rewrite (Hp e (or_introl eq_refl)) by congruence. rewrite teqb_refl. cbn [andb]. exact IH'.
  - replace (teqb (low (e_name e)) (low (e_name p))) with false.
    + cbn [andb map]. rewrite IH', Ei. reflexivity.
    + symmetry. apply teqb_neq. rewrite Ei, Ek. intros X. apply low_vol in X; [congruence|exact Hs|lia|lia].
Qed.
End OneSet.

Lemma crc_low a b : map small (e_crc a) = map small (e_crc b) -> Forall hex_char (e_crc a) -> Forall hex_char (e_crc b) -> low (e_crc a) = low (e_crc b).
Proof. intros E. apply low_lower; [|exact E]. rewrite <- (map_length small (e_crc a)), E. apply map_length. Qed.
Theorem set_sorted s n l r : style_ok s -> N.of_nat n <= vol_limit s -> sfv_of_set s n l -> Forall (fun e => Forall hex_char (e_crc e)) l -> sorting l r ->
  map e_name (drop_dups None r) = vol_names s n /\ incl (drop_dups None r) l.
Proof.
  intros Hs Hn [HI Hc] Hx [Hp Hr].
  assert (Hin : forall e, In e r <-> In e l) by (intros e; split; apply Permutation_in; [now apply Permutation_sym|exact Hp]).
  assert (Hnames : Forall (fun e => In (e_name e) (vol_names s n)) r).
  { apply Forall_forall. intros e He. apply HI, in_map, Hin, He. }
  assert (Hcrc : forall a b, In a r -> In b r -> e_name a = e_name b -> low (e_crc a) = low (e_crc b)).
  { intros a b Ha Hb E. rewrite Forall_forall in Hx. apply crc_low; [apply Hc; [now apply Hin|now apply Hin|exact E]|apply Hx; now apply Hin|apply Hx; now apply Hin]. }
  destruct (sorted_idx s n Hs Hn r Hr Hnames) as (is & F & R). split.
  - assert (E : map e_name (drop_dups None r) = map (vol_name s) (dedup None is)).
    { destruct F as [|e i r' is' [Hi Ei] F]; [reflexivity|]. cbn [drop_dups dedup map]. rewrite Ei. f_equal.
      apply (drop_dups_names s n Hs Hn r' is' F); [intros a b Ha Hb; apply Hcrc; now right|intros a Ha; apply Hcrc; [now right|now left]|split; assumption]. }
    rewrite E. unfold vol_names. replace (dedup None is) with (map N.of_nat (seq 0 n)); [now rewrite map_map|].
    apply incr_unique.
    + clear. assert (G : forall m a, StronglySorted N.lt (map N.of_nat (seq a m)) /\ Forall (fun x => N.of_nat a <= x) (map N.of_nat (seq a m))).
      { induction m as [|m IH]; intros a; [repeat constructor|]. cbn [seq map]. destruct (IH (S a)) as [A B]. split; constructor; [exact A| |lia|]; (eapply Forall_impl; [|exact B]; intros x X; cbv beta in X; lia). }
      apply G.
    + destruct is as [|i is]; [constructor|]. cbn [dedup]. destruct (dedup_lt is i R). now constructor.
    + intros x. assert (D := dedup_In is None x). rewrite in_map_iff.
      assert (Q : In x is <-> x < N.of_nat n).
      { split.
        - intros Hx'. clear - F Hx'. induction F as [|e i r is [Hi _] F IH]; [destruct Hx'|]. destruct Hx' as [->|]; auto.
        - intros Hx'. assert (Hv : In (vol_name s x) (map e_name r)).
          { assert (Hl : In (vol_name s x) (map e_name l)) by (apply HI, vol_names_In; eauto). apply in_map_iff in Hl as (e & Ee & He). rewrite <- Ee. now apply in_map, Hin. }
          apply in_map_iff in Hv as (e & Ee & He). clear - F Ee He Hs Hn Hx'. induction F as [|e' i r is [Hi Ei] F IH]; [destruct He|]. destruct He as [->|He]; [|right; auto].
          left. apply (vol_name_inj s i x Hs); [lia|lia|congruence]. }
      split.
      * intros (k & <- & Hk). apply in_seq in Hk. destruct (proj2 D) as [|]; [left; apply Q; lia|assumption|discriminate].
      * intros Hd. destruct (proj1 D (or_introl Hd)) as [Hi|]; [|discriminate]. apply Q in Hi. exists (N.to_nat x). split; [lia|]. apply in_seq. lia.
  - intros e He. apply Hin. clear - He. assert (G : forall p, In e (drop_dups p r) -> In e r).
    { clear He. induction r as [|x r IH]; intros p H; [destruct H|]. cbn [drop_dups] in H. destruct p as [p|]; [destruct (sfv_eq x p)|]; try (right; now apply (IH _ H)); (destruct H as [->|H]; [now left|right; now apply (IH _ H)]). }
    now apply (G None).
Qed.

(** insertion sort gives such a list: comparing is total and never both ways *)
Lemma lt_asym a b : sfv_lt a b = true -> sfv_lt b a = false.
Proof.
  unfold sfv_lt. fold (ext a) (ext b). rewrite (teqb_sym (low (cut_end 4 (e_name b)))), (teqb_sym (ext b) (ext a)).
  set (sb := teqb (low (cut_end 4 (e_name a))) (low (cut_end 4 (e_name b)))).
  destruct (sb && negb (teqb (ext a) (ext b))) eqn:E; [|apply text_lt_asym].
  apply andb_true_iff in E as [_ E]. destruct (teqb (ext a) (str ".rar")) eqn:Ra; destruct (teqb (ext b) (str ".rar")) eqn:Rb.
  - apply teqb_eq in Ra, Rb. rewrite Ra, Rb, teqb_refl in E. discriminate.
  - destruct (vol_ext (ext b)); [reflexivity|apply text_lt_asym].
  - destruct (vol_ext (ext a)); [discriminate|apply text_lt_asym].
  - apply text_lt_asym.
Qed.
Lemma lt_total a b : e_name a <> e_name b -> sfv_lt a b = true \/ sfv_lt b a = true.
Proof.
  intros H. pose proof (text_lt_total _ _ H) as T. unfold sfv_lt. fold (ext a) (ext b). rewrite (teqb_sym (low (cut_end 4 (e_name b)))), (teqb_sym (ext b) (ext a)).
  set (sb := teqb (low (cut_end 4 (e_name a))) (low (cut_end 4 (e_name b)))).
  destruct (sb && negb (teqb (ext a) (ext b))) eqn:E; [|exact T].
  apply andb_true_iff in E as [_ E]. destruct (teqb (ext a) (str ".rar")) eqn:Ra; destruct (teqb (ext b) (str ".rar")) eqn:Rb; try exact T.
  - apply teqb_eq in Ra, Rb. rewrite Ra, Rb, teqb_refl in E. discriminate.
  - destruct (vol_ext (ext b)); [now left|exact T].
  - destruct (vol_ext (ext a)); [now right|exact T].
Qed.
Lemma insert_perm x l : Permutation (x :: l) (insert x l).
Proof. induction l as [|y l IH]; [reflexivity|]. cbn [insert]. destruct (sfv_lt y x); [|reflexivity]. rewrite perm_swap. now constructor. Qed.
Lemma sort_perm l : Permutation l (sort_sfv l).
Proof. induction l as [|x l IH]; [reflexivity|]. cbn [sort_sfv fold_right]. fold (sort_sfv l). rewrite <- insert_perm. now constructor. Qed.
Definition step (r : list sfv) : Prop := forall i a b, nth_error r i = Some a -> nth_error r (S i) = Some b -> sfv_lt b a = false.
Lemma step_cons x r : step (x :: r) <-> (match r with y :: _ => sfv_lt y x = false | [] => True end) /\ step r.
Proof.
  split.
  - intros H. split; [destruct r as [|y r]; [exact I|exact (H 0%nat x y eq_refl eq_refl)]|]. intros i a b. apply (H (S i)).
  - intros [H1 H2] [|i] a b Ha Hb; [|now apply (H2 i)]. cbn in Ha. injection Ha as <-. destruct r as [|y r]; [discriminate|]. cbn in Hb. injection Hb as <-. exact H1.
Qed.
Lemma insert_step x l : step l -> step (insert x l).
Proof.
  induction l as [|y l IH]; intros H; cbn [insert]; [apply step_cons; auto|]. destruct (sfv_lt y x) eqn:E; [|apply step_cons; auto].
  apply step_cons in H as [H1 H2]. apply step_cons. split; [|now apply IH]. destruct l as [|z l]; cbn [insert]; [now apply lt_asym|]. destruct (sfv_lt z x); [exact H1|now apply lt_asym].
Qed.
Theorem sort_sorting l : sorting l (sort_sfv l).
Proof.
  split; [apply sort_perm|]. change (step (sort_sfv l)). induction l as [|x l IH]; [intros [|i]; discriminate|]. cbn [sort_sfv fold_right]. fold (sort_sfv l). now apply insert_step.
Qed.
Theorem filter_set s n l : style_ok s -> N.of_nat n <= vol_limit s -> sfv_of_set s n l ->
  Forall (fun e => Forall hex_char (e_crc e)) l ->
  map e_name (filter_sfv_duplicates l) = vol_names s n /\ incl (filter_sfv_duplicates l) l.
Proof. intros Hs Hn Hl Hc. exact (set_sorted s n l _ Hs Hn Hl Hc (sort_sorting l)). Qed.
Lemma lt_strict a b : (e_name a <> e_name b -> sfv_lt a b = negb (sfv_lt b a)) /\ (e_name a = e_name b -> sfv_lt a b = false).
Proof.
  split.
  - intros H. destruct (sfv_lt a b) eqn:E; [apply lt_asym in E; now rewrite E|]. destruct (lt_total a b H) as [X|X]; [congruence|now rewrite X].
  - intros H. destruct (sfv_lt a b) eqn:E; [|reflexivity]. pose proof (lt_asym a b E) as F. unfold sfv_lt in E, F. rewrite H in E, F. congruence.
Qed.

(** nothing is lost *)
Lemma low1_same c d : low1 c = low1 d -> same_letter c d.
Proof. unfold low1, same_letter, capital. intros H. destruct (_ || _) eqn:A in H; destruct (_ || _) eqn:B in H; lia. Qed.
Lemma low_same a : forall b, low a = low b -> same_text a b.
Proof.
  induction a as [|x a IH]; intros [|y b] H; try discriminate; constructor.
  - apply low1_same. now injection H.
  - apply IH. now injection H.
Qed.
Lemma drop_dups_all l : forall p e, In e l -> (exists e', In e' (drop_dups p l) /\ sfv_eq e e' = true) \/ (exists q, p = Some q /\ sfv_eq e q = true).
Proof.
  assert (R : forall e, sfv_eq e e = true) by (intros e; unfold sfv_eq; now rewrite !teqb_refl).
  assert (T : forall a b c, sfv_eq a b = true -> sfv_eq b c = true -> sfv_eq a c = true).
  { unfold sfv_eq. intros a b c. rewrite !andb_true_iff, !teqb_eq. intuition congruence. }
  induction l as [|x l IH]; intros p e He; [destruct He|]. cbn [drop_dups].
  assert (G : (exists e', In e' (drop_dups (Some x) l) /\ sfv_eq e e' = true) \/ sfv_eq e x = true).
  { destruct He as [->|He]; [right; apply R|]. destruct (IH (Some x) e He) as [|(q & Q & E)]; [now left|]. injection Q as <-. now right. }
  destruct p as [p|]; [destruct (sfv_eq x p) eqn:E|].
  - destruct G as [G|G]; [now left|]. right. exists p. split; [reflexivity|]. eapply T; eauto.
  - left. destruct G as [(e' & A & B)|G]; [exists e'|exists x]; cbn [In]; auto.
  - left. destruct G as [(e' & A & B)|G]; [exists e'|exists x]; cbn [In]; auto.
Qed.
Theorem filter_all l e : In e l -> exists e', In e' (filter_sfv_duplicates l) /\ same_text (e_name e) (e_name e') /\ same_text (e_crc e) (e_crc e').
Proof.
  intros H. apply (Permutation_in _ (sort_perm l)) in H. destruct (drop_dups_all _ None e H) as [(e' & A & B)|(q & Q & _)]; [|discriminate].
  exists e'. split; [exact A|]. unfold sfv_eq in B. apply andb_true_iff in B as [B1 B2]. apply teqb_eq in B1, B2. split; now apply low_same.
Qed.

(** tests for examples *)
Lemma hex_test c : forallb crc_char c = true -> Forall hex_char c.
Proof. intros H. apply Forall_forall. intros x Hx. rewrite forallb_forall in H. apply crc_char_iff. now apply H. Qed.
Definition name_test (n : text) : bool :=
  forallb (fun c => (32 <=? c) && (c <? 127)) n && (34 <? hd 0 n) && negb (hd 0 n =? 59) && (34 <? last n 0).
Lemma last_In (n : text) : n <> [] -> In (last n 0) n.
Proof. intros H. destruct (exists_last H) as (a & x & ->). rewrite last_last. apply in_or_app. right. now left. Qed.
Lemma row_test n c : name_test n = true -> length c = 8%nat -> forallb crc_char c = true -> row_ok (mkSfv n c).
Proof.
  intros H Hl Hc. unfold name_test in H. apply andb_true_iff in H as [H H4]. apply andb_true_iff in H as [H H3]. apply andb_true_iff in H as [H H2].
  rewrite forallb_forall in H.
  assert (N0 : n <> []) by (intros ->; discriminate). pose proof (H _ (last_In n N0)) as L.
  assert (D : In (hd 0 n) n) by (destruct n; [congruence|now left]). pose proof (H _ D) as L'.
  split; [|split; [exact Hl|now apply hex_test]]. cbn [e_name]. split; [exact N0|]. split; [apply Forall_forall; intros x Hx; specialize (H x Hx); lia|].
  unfold white, ascii_white. repeat split; lia.
Qed.
