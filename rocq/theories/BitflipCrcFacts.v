(** BitflipCrcFacts: the period of the CRC register. *)
From Coq Require Import Znumtheory.
From Verif Require Import Base BaseFacts Crc CrcSpec Combine RecovFacts EditFacts SrrFacts CrcFacts.

Lemma crc_bit_zero x : x < 2 ^ 32 -> crc_bit x = 0 -> x = 0.
Proof.
  intros Hx H. unfold crc_bit in H. destruct (N.odd x) eqn:Eo.
  - apply N.lxor_eq in H. exfalso. rewrite N.div2_div in H. unfold CRC_POLY in H.
    assert (x / 2 < 2147483648) by (apply N.div_lt_upper_bound; [discriminate|exact Hx]). lia.
  - rewrite (N.div2_odd x), H, Eo. reflexivity.
Qed.
Lemma iter_lt n x : x < 2 ^ 32 -> N.iter n crc_bit x < 2 ^ 32.
Proof. intros H. induction n as [|n IH] using N.peano_ind; [exact H|]. rewrite N.iter_succ. now apply crc_bit_lt. Qed.
Lemma iter_zero n x : x < 2 ^ 32 -> N.iter n crc_bit x = 0 -> x = 0.
Proof.
  intros Hx. induction n as [|n IH] using N.peano_ind; [tauto|]. rewrite N.iter_succ. intros H.
  apply crc_bit_zero in H; [auto|]. now apply iter_lt.
Qed.
Lemma iter_inj n x y : x < 2 ^ 32 -> y < 2 ^ 32 -> N.iter n crc_bit x = N.iter n crc_bit y -> x = y.
Proof.
  intros Hx Hy H. apply N.lxor_eq. apply (iter_zero n); [now apply (lxor_lt _ _ 32)|].
  rewrite crc_iter_lxor, H. apply N.lxor_nilpotent.
Qed.

(** the number of steps after which the register is the same again *)
Definition back (d : N) : Prop := N.iter d crc_bit 1 = 1.
Lemma back_add a b : back a -> back b -> back (a + b).
Proof. unfold back. intros Ha Hb. now rewrite crc_iter_add, Hb. Qed.
Lemma back_sub a b : back (a + b) -> back a -> back b.
Proof.
  unfold back. rewrite crc_iter_add. intros H Ha. apply (iter_inj a); [now apply iter_lt|reflexivity|]. now rewrite H, Ha.
Qed.
Lemma back_mul a k : back a -> back (k * a).
Proof. intros H. induction k as [|k IH] using N.peano_ind; [reflexivity|]. rewrite N.mul_succ_l. now apply back_add. Qed.
Lemma back_mod a b : b <> 0 -> back a -> back b -> back (a mod b).
Proof.
  intros Hz Ha Hb. apply (back_sub (a / b * b)); [|now apply back_mul].
  replace (a / b * b + a mod b) with a by (rewrite N.mul_comm; now apply N.div_mod). exact Ha.
Qed.
Lemma back_gcd a : forall b, back a -> back b -> back (N.gcd a b).
Proof.
  induction a as [a IH] using (well_founded_induction N.lt_wf_0). intros b Ha Hb.
  destruct (N.eq_dec a 0) as [->|Hz]; [now rewrite N.gcd_0_l|].
  rewrite <- N.gcd_mod by exact Hz. apply IH; [now apply N.mod_lt|now apply back_mod|exact Ha].
Qed.

Lemma loop_iter k x y : x < 2 ^ 32 -> combine_loop 32 one_bit x k = Ok y -> k < 2 ^ 32 -> N.iter (2 * k) crc_bit x = y.
Proof.
  intros Hx H Hk. rewrite (combine_loop_spec 32 1) in H; [|apply one_bit_rows|exact Hx|exact Hk].
  apply ok_inj in H. exact H.
Qed.
Lemma iter_half k x y : x < 2 ^ 32 -> k < 2 ^ 32 -> combine_loop 32 one_bit (crc_bit x) k = Ok y -> N.iter (2 * k + 1) crc_bit x = y.
Proof.
  intros Hx Hk H. rewrite crc_iter_add. change (N.iter 1 crc_bit x) with (crc_bit x). apply loop_iter; [now apply crc_bit_lt|exact H|exact Hk].
Qed.
Definition PERIOD : N := 4294967295.
Lemma period_back : back PERIOD.
Proof. unfold back. change PERIOD with (2 * 2147483647 + 1). apply iter_half; [reflexivity|reflexivity|vm_compute; reflexivity]. Qed.
Lemma three_log : N.iter 3918146788 crc_bit 3 = 1.
Proof. change 3918146788 with (2 * 1959073394). apply loop_iter; [reflexivity|vm_compute; reflexivity|reflexivity]. Qed.
Lemma not_back k y : k < 2 ^ 32 -> combine_loop 32 one_bit (crc_bit 1) k = Ok y -> (y =? 1) = false -> ~ back (2 * k + 1).
Proof. intros Hk H Hy Hb. unfold back in Hb. rewrite (iter_half k 1 y) in Hb; [|reflexivity|exact Hk|exact H]. subst y. discriminate Hy. Qed.
Lemma nb3 : ~ back 1431655765.
Proof. change 1431655765 with (2 * 715827882 + 1). eapply not_back; [reflexivity|vm_compute; reflexivity|reflexivity]. Qed.
Lemma nb5 : ~ back 858993459.
Proof. change 858993459 with (2 * 429496729 + 1). eapply not_back; [reflexivity|vm_compute; reflexivity|reflexivity]. Qed.
Lemma nb17 : ~ back 252645135.
Proof. change 252645135 with (2 * 126322567 + 1). eapply not_back; [reflexivity|vm_compute; reflexivity|reflexivity]. Qed.
Lemma nb257 : ~ back 16711935.
Proof. change 16711935 with (2 * 8355967 + 1). eapply not_back; [reflexivity|vm_compute; reflexivity|reflexivity]. Qed.
Lemma nb65537 : ~ back 65535.
Proof. change 65535 with (2 * 32767 + 1). eapply not_back; [reflexivity|vm_compute; reflexivity|reflexivity]. Qed.

Lemma prime_by p n : (1 < p)%Z -> (p < Z.of_nat (n * n))%Z ->
  forallb (fun k => negb (p mod Z.of_nat k =? 0)%Z) (seq 2 n) = true -> (Z.of_nat n < p)%Z -> prime p.
Proof.
  intros H1 Hp Hall Hn. apply prime_alt. split; [exact H1|]. intros x Hx (y & Hy).
  assert (Hno : forall z, (1 < z)%Z -> (z <= Z.of_nat n)%Z -> (z | p)%Z -> False).
  { intros z Hz1 Hz2 Hd. rewrite forallb_forall in Hall. specialize (Hall (Z.to_nat z)).
    rewrite Z2Nat.id in Hall by lia. rewrite Zdivide_mod in Hall by exact Hd. discriminate Hall. apply in_seq. lia. }
  destruct (Z_le_gt_dec x (Z.of_nat n)) as [Hs|Hs].
  - apply (Hno x); [lia|exact Hs|now exists y].
  - assert (Hy1 : (1 < y)%Z) by nia. destruct (Z_le_gt_dec y (Z.of_nat n)) as [Hs2|Hs2].
    + apply (Hno y); [exact Hy1|exact Hs2|exists x; lia].
    + nia.
Qed.
Lemma prime_65537 : prime 65537.
Proof. apply (prime_by 65537 257); [lia|lia|vm_compute; reflexivity|lia]. Qed.
Lemma prime_257 : prime 257.
Proof. apply (prime_by 257 17); [lia|lia|vm_compute; reflexivity|lia]. Qed.
Lemma prime_17 : prime 17.
Proof. apply (prime_by 17 5); [lia|lia|vm_compute; reflexivity|lia]. Qed.
Lemma prime_5 : prime 5.
Proof. apply (prime_by 5 3); [lia|lia|vm_compute; reflexivity|lia]. Qed.

Open Scope Z_scope.
Lemma coprime_divide a b c : rel_prime a b -> (a | c) -> (b | c) -> (a * b | c).
Proof.
  intros Hr (x & Hx) Hb. subst c. apply rel_prime_sym in Hr.
  destruct (Gauss b a x) as (y & Hy); [now rewrite Z.mul_comm|exact Hr|]. exists y. subst x. ring.
Qed.
Lemma factor g h : 0 < g -> 0 < h -> g * h = 4294967295 -> h <> 1 -> (3 | h) \/ (5 | h) \/ (17 | h) \/ (257 | h) \/ (65537 | h).
Proof.
  intros Hg Hh H H1.
  assert (D : forall p q, prime p -> 4294967295 = q * p -> (p | g) \/ (p | h)).
  { intros p q Hp Hq. apply prime_mult; [exact Hp|]. rewrite H. now exists q. }
  destruct (D 3 1431655765 prime_3 eq_refl) as [D3|D3]; [|tauto].
  destruct (D 5 858993459 prime_5 eq_refl) as [D5|D5]; [|tauto].
  destruct (D 17 252645135 prime_17 eq_refl) as [D17|D17]; [|tauto].
  destruct (D 257 16711935 prime_257 eq_refl) as [D257|D257]; [|tauto].
  destruct (D 65537 65535 prime_65537 eq_refl) as [D65|D65]; [|tauto].
  exfalso.
  assert (E1 : (3 * 5 | g)) by (apply coprime_divide; [apply Zgcd_1_rel_prime; reflexivity|assumption|assumption]).
  assert (E2 : (3 * 5 * 17 | g)) by (apply coprime_divide; [apply Zgcd_1_rel_prime; reflexivity|assumption|assumption]).
  assert (E3 : (3 * 5 * 17 * 257 | g)) by (apply coprime_divide; [apply Zgcd_1_rel_prime; reflexivity|assumption|assumption]).
  assert (E4 : (3 * 5 * 17 * 257 * 65537 | g)) by (apply coprime_divide; [apply Zgcd_1_rel_prime; reflexivity|assumption|assumption]).
  apply Z.divide_pos_le in E4; [|exact Hg]. nia.
Qed.
Close Scope Z_scope.

(** the register takes every value but zero: it is back only after 2^32 - 1 steps *)
Lemma period d : 0 < d -> d < PERIOD -> ~ back d.
Proof.
  intros H0 Hd Hb. pose proof (back_gcd d PERIOD Hb period_back) as Hg. set (g := N.gcd d PERIOD) in *.
  assert (Hgd : (g | d)) by apply N.gcd_divide_l. assert (HgM : (g | PERIOD)) by apply N.gcd_divide_r.
  assert (Hle : g <= d) by (apply N.divide_pos_le; [exact H0|exact Hgd]).
  destruct HgM as (h & Hh). clearbody g. unfold PERIOD in *.
  assert (Q : forall p q, 4294967295 = (q * p)%N -> (Z.of_N p | Z.of_N h)%Z -> ~ back q -> p <> 0 -> False).
  { intros p q Hq (k & Hk) Hn Hp. apply Hn. assert (Hk0 : (0 <= k)%Z) by nia.
    replace q with (Z.to_N k * g); [now apply back_mul|].
    assert (Eh : h = Z.to_N k * p) by lia. rewrite Eh in Hh. apply (N.mul_cancel_r _ _ p Hp). lia. }
  destruct (factor (Z.of_N g) (Z.of_N h)) as [D|[D|[D|[D|D]]]]; [nia|nia|nia|nia| | | | |].
  - exact (Q 3 1431655765 eq_refl D nb3 ltac:(discriminate)).
  - exact (Q 5 858993459 eq_refl D nb5 ltac:(discriminate)).
  - exact (Q 17 252645135 eq_refl D nb17 ltac:(discriminate)).
  - exact (Q 257 16711935 eq_refl D nb257 ltac:(discriminate)).
  - exact (Q 65537 65535 eq_refl D nb65537 ltac:(discriminate)).
Qed.
Lemma iter_one m n : m < n -> n - m < PERIOD -> N.iter m crc_bit 1 <> N.iter n crc_bit 1.
Proof.
  intros H Hp E. apply (period (n - m)); [lia|exact Hp|]. unfold back. apply (iter_inj m); [now apply iter_lt|reflexivity|].
  rewrite <- crc_iter_add. replace (m + (n - m)) with n by lia. now symmetry.
Qed.
Lemma iter_three m n : m < n -> n - m < PERIOD -> N.iter m crc_bit 3 <> N.iter n crc_bit 3.
Proof.
  intros H Hp E. apply (iter_one m n H Hp). generalize three_log. generalize 3918146788. intros k Hk. rewrite <- Hk, <- !crc_iter_add.
  rewrite (N.add_comm m k), (N.add_comm n k), (crc_iter_add k m), (crc_iter_add k n), E. reflexivity.
Qed.

(** what one changed byte does to the CRC *)
Lemma crc32_change a b b' c : crc32 (a ++ b' :: c) = N.lxor (crc32 (a ++ b :: c)) (N.iter (8 * (lenN c + 1)) crc_bit (N.lxor (b2n b) (b2n b'))).
Proof.
  unfold crc32, zcrc32. rewrite !crc_upd_app. set (r := crc_upd (N.lxor 0 MASK32) a). clearbody r.
  change (crc_upd r (b' :: c)) with (crc_upd (crc_byte r b') c). change (crc_upd r (b :: c)) with (crc_upd (crc_byte r b) c).
  rewrite <- (N.lxor_0_r (crc_byte r b')), <- (N.lxor_0_r (crc_byte r b)), !crc_upd_split. unfold crc_byte.
  rewrite N.mul_add_distr_l, crc_iter_add. change (8 * 1) with 8. rewrite !crc_iter_lxor.
  generalize (N.iter (8 * lenN c) crc_bit (N.iter 8 crc_bit r)), (N.iter (8 * lenN c) crc_bit (N.iter 8 crc_bit (b2n b))),
    (N.iter (8 * lenN c) crc_bit (N.iter 8 crc_bit (b2n b'))), (crc_upd 0 c), MASK32. intros x1 x2 x3 x4 x5.
  apply N.bits_inj. intros i. rewrite !N.lxor_spec.
  destruct (N.testbit x1 i), (N.testbit x2 i), (N.testbit x3 i), (N.testbit x4 i), (N.testbit x5 i); reflexivity.
Qed.
Lemma b2n_lt b : b2n b < 2 ^ 32.
Proof. pose proof (Byte.to_N_bounded b). unfold b2n. lia. Qed.
(** a change within one byte always changes the CRC *)
Lemma crc32_byte a b b' c : crc32 (a ++ b' :: c) = crc32 (a ++ b :: c) -> b' = b.
Proof.
  rewrite (crc32_change a b b' c). intros H. set (k := 8 * (lenN c + 1)) in *. clearbody k.
  assert (E : N.iter k crc_bit (N.lxor (b2n b) (b2n b')) = 0).
  { apply (f_equal (N.lxor (crc32 (a ++ b :: c)))) in H. rewrite <- N.lxor_assoc, N.lxor_nilpotent, N.lxor_0_l in H. exact H. }
  apply iter_zero in E; [|apply (lxor_lt _ _ 32); apply b2n_lt]. apply N.lxor_eq in E.
  rewrite <- (n2b_b2n b), <- (n2b_b2n b'). now rewrite E.
Qed.
Lemma iter_shift i : forall k e, i <= k -> N.iter k crc_bit (e * 2 ^ i) = N.iter (k - i) crc_bit e.
Proof.
  induction i as [|i IH] using N.peano_ind; intros k e Hk.
  - rewrite N.sub_0_r. f_equal. rewrite N.pow_0_r. lia.
  - rewrite N.pow_succ_r'. replace (e * (2 * 2 ^ i)) with (2 * (e * 2 ^ i)) by lia.
    transitivity (N.iter (k - 1 + 1) crc_bit (2 * (e * 2 ^ i))); [f_equal; lia|]. rewrite crc_iter_add. change (N.iter 1 crc_bit ?z) with (crc_bit z).
    rewrite crc_bit_double, IH by lia. f_equal. lia.
Qed.
