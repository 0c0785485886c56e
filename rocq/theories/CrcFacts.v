(** CrcFacts: CRC-32 and its combination. *)
From Verif Require Import Base BaseFacts Crc CrcSpec Combine RecovFacts EditFacts SrrFacts.

(** ** Linearity *)
Lemma odd_lxor a b : N.odd (N.lxor a b) = xorb (N.odd a) (N.odd b).
Proof. rewrite <- !N.bit0_odd. apply N.lxor_spec. Qed.
Lemma crc_bit_lxor a b : crc_bit (N.lxor a b) = N.lxor (crc_bit a) (crc_bit b).
Proof.
  unfold crc_bit. rewrite odd_lxor. rewrite !N.div2_spec, N.shiftr_lxor.
  set (x := N.shiftr a 1). set (y := N.shiftr b 1). set (p := CRC_POLY). clearbody x y p.
  destruct (N.odd a), (N.odd b); cbn [xorb]; apply N.bits_inj; intros i; rewrite ?N.lxor_spec;
    destruct (N.testbit x i), (N.testbit y i), (N.testbit p i); reflexivity.
Qed.
Lemma crc_iter_lxor n a b : N.iter n crc_bit (N.lxor a b) = N.lxor (N.iter n crc_bit a) (N.iter n crc_bit b).
Proof.
  induction n as [|n IH] using N.peano_ind; [reflexivity|]. rewrite !N.iter_succ, IH. apply crc_bit_lxor.
Qed.
Lemma crc_iter_add m n a : N.iter (m + n) crc_bit a = N.iter m crc_bit (N.iter n crc_bit a).
Proof. apply N.iter_add. Qed.
Lemma crc_iter_0 n : N.iter n crc_bit 0 = 0.
Proof. induction n as [|n IH] using N.peano_ind; [reflexivity|]. rewrite N.iter_succ, IH. reflexivity. Qed.

Lemma crc_upd_app c a b : crc_upd c (a ++ b) = crc_upd (crc_upd c a) b.
Proof. apply fold_left_app. Qed.
Lemma lxor_swap a b c d : N.lxor (N.lxor a b) (N.lxor c d) = N.lxor (N.lxor a c) (N.lxor b d).
Proof.
  apply N.bits_inj. intros i. rewrite !N.lxor_spec.
  destruct (N.testbit a i), (N.testbit b i), (N.testbit c i), (N.testbit d i); reflexivity.
Qed.
Lemma crc_upd_split d : forall c e, crc_upd (N.lxor c e) d = N.lxor (N.iter (8 * lenN d) crc_bit c) (crc_upd e d).
Proof.
  unfold crc_upd. induction d as [|b d IH]; intros c e; cbn [fold_left].
  - reflexivity.
  - replace (crc_byte (N.lxor c e) b) with (N.lxor (N.iter 8 crc_bit c) (crc_byte e b)).
    + rewrite IH. f_equal. rewrite lenN_cons. replace (8 * (1 + lenN d)) with (8 * lenN d + 8) by lia. now rewrite crc_iter_add.
    + unfold crc_byte. rewrite <- crc_iter_lxor. f_equal. symmetry. apply N.lxor_assoc.
Qed.
Lemma zcrc32_app a b s : zcrc32 (a ++ b) s = zcrc32 b (zcrc32 a s).
Proof.
  unfold zcrc32. rewrite crc_upd_app. do 2 f_equal. rewrite N.lxor_assoc, N.lxor_nilpotent. symmetry. apply N.lxor_0_r.
Qed.

(** ** The matrices of [crc32_combine] *)
(** the rows are the images of the powers of two under [k] zero bits *)
Definition rows (k : N) (m : list N) : Prop := m = map (fun i => N.iter k crc_bit (2 ^ N.of_nat i)) (seq 0 32).
Lemma matrix_loop_spec k n : forall j v acc, v < 2 ^ N.of_nat n -> (n <= 32)%nat ->
  matrix_loop (map (fun i => N.iter k crc_bit (2 ^ N.of_nat i)) (seq j n)) v acc
  = Ok (N.lxor acc (N.iter k crc_bit (v * 2 ^ N.of_nat j))).
Proof.
  induction n as [|n IH]; intros j v acc Hv Hn; cbn [matrix_loop seq map].
  - assert (v = 0) by (change (2 ^ N.of_nat 0) with 1 in Hv; lia). subst v. cbn [N.eqb]. now rewrite N.mul_0_l, crc_iter_0, N.lxor_0_r.
  - destruct (N.eqb_spec v 0) as [->|Hz].
    + now rewrite N.mul_0_l, crc_iter_0, N.lxor_0_r.
    + rewrite Nnat.Nat2N.inj_succ, N.pow_succ_r' in Hv.
      assert (Hs : N.land (N.shiftr v 1) 2147483647 = v / 2).
      { rewrite <- N.div2_spec, N.div2_div. change 2147483647 with (N.ones 31). rewrite N.land_ones. apply N.mod_small.
        assert (2 ^ N.of_nat n <= 2 ^ 31) by (apply N.pow_le_mono_r; lia).
        apply N.div_lt_upper_bound; lia. }
      rewrite Hs, IH; [|apply N.div_lt_upper_bound; lia|lia]. f_equal.
      rewrite Nnat.Nat2N.inj_succ, N.pow_succ_r'.
      change 1 with (N.ones 1). rewrite N.land_ones. change (2 ^ 1) with 2.
      rewrite (N.div_mod' v 2) at 3.
      set (w := v / 2). set (p := 2 ^ N.of_nat j).
      assert (Hb : v mod 2 = 0 \/ v mod 2 = 1) by lia.
      destruct Hb as [-> | ->]; cbn [N.eqb].
      * do 2 f_equal. lia.
      * replace ((2 * w + 1) * p) with (N.lxor p (w * (2 * p))).
        { rewrite crc_iter_lxor, N.lxor_assoc. reflexivity. }
        replace ((2 * w + 1) * p) with (p + w * (2 * p)) by lia.
        symmetry. apply N.add_nocarry_lxor. unfold p.
        replace (w * (2 * 2 ^ N.of_nat j)) with (N.shiftl w (N.succ (N.of_nat j))) by (rewrite N.shiftl_mul_pow2, N.pow_succ_r'; reflexivity).
        apply N.bits_inj. intros i. rewrite N.land_spec, N.bits_0. rewrite N.pow2_bits_eqb.
        destruct (N.eqb_spec (N.of_nat j) i) as [<-|]; [|reflexivity]. rewrite N.shiftl_spec_low by lia. reflexivity.
Qed.
Lemma matrix_times_spec k m v : rows k m -> v < 4294967296 -> matrix_times m v = Ok (N.iter k crc_bit v).
Proof.
  intros -> Hv. unfold matrix_times. rewrite matrix_loop_spec; [|exact Hv|lia]. change (2 ^ N.of_nat 0) with 1.
  rewrite N.mul_1_r, N.lxor_0_l. reflexivity.
Qed.
Lemma matrix_square_spec k m : rows k m -> exists m', matrix_square m = Ok m' /\ rows (k + k) m'.
Proof.
  intros H. unfold matrix_square. eexists. split; [|reflexivity]. pose proof H as H'. rewrite H at 2.
  rewrite takeN_all by (rewrite lenN_length, map_length, seq_length; lia).
  assert (G : forall l, Forall (fun i => (i < 32)%nat) l ->
     mapR (matrix_times m) (map (fun i => N.iter k crc_bit (2 ^ N.of_nat i)) l) = Ok (map (fun i => N.iter (k + k) crc_bit (2 ^ N.of_nat i)) l)).
  { induction 1 as [|i l Hi _ IH]; [reflexivity|]. cbn [map mapR].
    rewrite (matrix_times_spec k) by (try exact H'; apply iter_crc_bit_lt; change 4294967296 with (2 ^ 32); apply N.pow_lt_mono_r; lia).
    cbn [bind]. rewrite IH. cbn [bind]. now rewrite crc_iter_add. }
  apply G. apply Forall_forall. intros i Hi. apply in_seq in Hi. lia.
Qed.
Lemma one_bit_rows : rows 1 one_bit.
Proof. vm_compute. reflexivity. Qed.

Lemma combine_loop_spec fuel : forall k m crc len, rows k m -> crc < 4294967296 -> len < 2 ^ N.of_nat fuel ->
  combine_loop fuel m crc len = Ok (N.iter (2 * k * len) crc_bit crc).
Proof.
  induction fuel as [|fuel IH]; intros k m crc len Hm Hc Hl; cbn [combine_loop].
  - assert (len = 0) by (change (2 ^ N.of_nat 0) with 1 in Hl; lia). subst len. cbn [N.eqb]. now rewrite N.mul_0_r.
  - destruct (N.eqb_spec len 0) as [->|Hz]; [now rewrite N.mul_0_r|].
    rewrite Nnat.Nat2N.inj_succ, N.pow_succ_r' in Hl.
    destruct (matrix_square_spec k m Hm) as (m' & -> & Hm'). cbn [bind].
    rewrite <- N.div2_spec, N.div2_div. change 1 with (N.ones 1). rewrite N.land_ones. change (2 ^ 1) with 2.
    assert (Hd : len / 2 < 2 ^ N.of_nat fuel) by (apply N.div_lt_upper_bound; lia).
    assert (Hb : len mod 2 = 0 \/ len mod 2 = 1) by lia. pose proof (N.div_mod' len 2) as E.
    destruct Hb as [Hb|Hb]; rewrite Hb; cbn [N.eqb].
    + cbn [bind]. rewrite (IH (k + k)) by assumption. do 2 f_equal. rewrite E at 2. rewrite Hb. lia.
    + rewrite (matrix_times_spec (k + k)) by assumption. cbn [bind]. rewrite (IH (k + k)); [|assumption|now apply iter_crc_bit_lt|assumption].
      rewrite <- crc_iter_add. do 2 f_equal. rewrite E at 2. rewrite Hb. lia.
Qed.

Theorem combine_ok a b : crc32_combine (crc32 a) (crc32 b) (lenN b) = Ok (crc32 (a ++ b)).
Proof.
  unfold crc32_combine. destruct (N.eqb_spec (lenN b) 0) as [Hz|Hz].
  - apply lenN_0 in Hz. subst b. now rewrite app_nil_r.
  - destruct (matrix_square_spec 1 one_bit one_bit_rows) as (m2 & -> & H2). cbn [bind].
    destruct (matrix_square_spec 2 m2 H2) as (m4 & -> & H4). cbn [bind].
    rewrite (combine_loop_spec _ 4 m4); [|exact H4|apply crc32_lt|].
    2:{ destruct (lenN b) as [|p]; [congruence|]. cbn [N.size_nat]. clear. induction p; cbn [Pos.size_nat]; rewrite ?Nnat.Nat2N.inj_succ, ?N.pow_succ_r'; try lia. }
    cbn [bind]. f_equal. change (2 * 4 * lenN b) with (8 * lenN b).
    unfold crc32, zcrc32. rewrite !N.lxor_0_l. rewrite crc_upd_app.
    rewrite <- (N.lxor_0_r (crc_upd MASK32 a)) at 2. rewrite (crc_upd_split b (crc_upd MASK32 a) 0).
    rewrite <- (N.lxor_0_r MASK32) at 3. rewrite (crc_upd_split b MASK32 0). rewrite crc_iter_lxor.
    set (x := N.iter _ crc_bit (crc_upd MASK32 a)). set (y := N.iter _ crc_bit MASK32). set (z := crc_upd 0 b).
    apply N.bits_inj. intros i. rewrite !N.lxor_spec.
    destruct (N.testbit x i), (N.testbit y i), (N.testbit z i), (N.testbit MASK32 i); reflexivity.
Qed.

(** ** Polynomials *)
Lemma bits_ext a b : (forall i, N.testbit a i = N.testbit b i) -> a = b.
Proof. apply N.bits_inj. Qed.
Lemma double_lxor a b : 2 * N.lxor a b = N.lxor (2 * a) (2 * b).
Proof.
  apply bits_ext. intros i. destruct (N.zero_or_succ i) as [->|(j & ->)]; rewrite N.lxor_spec.
  - now rewrite !N.testbit_even_0.
  - now rewrite !N.double_bits_succ, N.lxor_spec.
Qed.
Lemma lxor_bit a b s t : N.lxor (2 * a + N.b2n s) (2 * b + N.b2n t) = 2 * N.lxor a b + N.b2n (xorb s t).
Proof.
  apply bits_ext. intros i. destruct (N.zero_or_succ i) as [->|(j & ->)]; rewrite N.lxor_spec.
  - now rewrite !N.testbit_0_r.
  - now rewrite !N.testbit_succ_r, N.lxor_spec.
Qed.
Lemma pmul_step q t g : pmul (2 * q + N.b2n t) g = N.lxor (if t then g else 0) (2 * pmul q g).
Proof.
  destruct q as [|p], t; cbn [N.b2n N.mul N.add pmul pmul_pos].
  - rewrite N.mul_0_r. symmetry. apply N.lxor_0_r.
  - reflexivity.
  - reflexivity.
  - rewrite N.lxor_0_l. reflexivity.
Qed.
Lemma bin_ind (P : N -> Prop) : P 0 -> (forall a t, P a -> P (2 * a + N.b2n t)) -> forall a, P a.
Proof.
  intros H0 H. destruct a as [|p]; [exact H0|]. induction p as [p IH|p IH|].
  - exact (H _ true IH).
  - specialize (H _ false IH). cbn [N.b2n] in H. rewrite N.add_0_r in H. exact H.
  - exact (H _ true H0).
Qed.
Lemma bin_case a : exists b t, a = 2 * b + N.b2n t.
Proof. exists (N.div2 a), (N.odd a). apply N.div2_odd. Qed.
Lemma pmul_lxor g : forall a b, pmul (N.lxor a b) g = N.lxor (pmul a g) (pmul b g).
Proof.
  intros a. induction a as [|a s IH] using bin_ind; intros b.
  - now rewrite !N.lxor_0_l.
  - destruct (bin_case b) as (b' & t & ->). rewrite lxor_bit, !pmul_step, IH, double_lxor, lxor_swap. f_equal.
    destruct s, t; cbn [xorb]; rewrite ?N.lxor_0_l, ?N.lxor_0_r, ?N.lxor_nilpotent; reflexivity.
Qed.
Lemma pmul_size q : q <> 0 -> 2 ^ 32 * 2 ^ N.log2 q <= pmul q GEN < 2 ^ 33 * 2 ^ N.log2 q.
Proof.
  induction q as [|q t IH] using bin_ind; intros Hq; [congruence|].
  destruct (N.eq_dec q 0) as [->|Hz].
  - destruct t; [|exfalso; apply Hq; reflexivity]. vm_compute. split; [discriminate|reflexivity].
  - specialize (IH Hz). rewrite pmul_step.
    assert (El : N.log2 (2 * q + N.b2n t) = N.succ (N.log2 q)).
    { destruct t; cbn [N.b2n]; [apply N.log2_succ_double || (rewrite N.log2_succ_double by lia); lia|].
      rewrite N.add_0_r. apply N.log2_double. lia. }
    rewrite El, N.pow_succ_r'. set (k := N.log2 q) in *. set (m := pmul q GEN) in *.
    assert (Hm : m <> 0) by (assert (0 < 2 ^ 32 * 2 ^ k) by (apply N.mul_pos_pos; [reflexivity|apply N.neq_0_lt_0, N.pow_nonzero; lia]); lia).
    assert (Hlog : N.log2 m = 32 + k).
    { apply N.log2_unique; [lia|]. rewrite N.pow_succ_r', !N.pow_add_r. change (2 ^ 33) with (2 * 2 ^ 32) in IH. lia. }
    assert (Hg : (if t then GEN else 0) < 2 ^ 33) by (destruct t; vm_compute; reflexivity).
    set (g := if t then GEN else 0) in *. clearbody g.
    assert (Hlog2 : N.log2 (N.lxor g (2 * m)) = 33 + k).
    { assert (L2 : N.log2 (2 * m) = 33 + k) by (rewrite N.log2_double by lia; lia).
      apply N.log2_bits_unique.
      - rewrite N.lxor_spec. rewrite (N.bits_above_log2 g).
        2:{ destruct (N.eq_dec g 0) as [->|]; [change (N.log2 0) with 0; lia|]. apply N.log2_lt_pow2 in Hg; lia. }
        rewrite <- L2. rewrite N.bit_log2 by lia. reflexivity.
      - intros j Hj. rewrite N.lxor_spec. rewrite (N.bits_above_log2 (2 * m)) by lia. rewrite (N.bits_above_log2 g); [reflexivity|].
        destruct (N.eq_dec g 0) as [->|]; [change (N.log2 0) with 0; lia|]. apply N.log2_lt_pow2 in Hg; lia. }
    assert (Hnz : N.lxor g (2 * m) <> 0) by (intros E; rewrite E in Hlog2; cbn in Hlog2; lia).
    pose proof (N.log2_spec (N.lxor g (2 * m)) ltac:(lia)) as Hs. rewrite Hlog2 in Hs.
    rewrite <- N.add_succ_l in Hs. rewrite !N.pow_add_r in Hs. change (2 ^ N.succ 33) with (2 * 2 ^ 33) in Hs.
    change (2 ^ 33) with (2 * 2 ^ 32) in *. lia.
Qed.
Lemma rem_unique q r q' r' : r < 2 ^ 32 -> r' < 2 ^ 32 ->
  N.lxor (pmul q GEN) r = N.lxor (pmul q' GEN) r' -> r = r'.
Proof.
  intros Hr Hr' H. destruct (N.eq_dec (N.lxor q q') 0) as [E|E].
  - apply N.lxor_eq in E. subst q'. apply bits_ext. intros i. apply (f_equal (fun x => N.testbit x i)) in H.
    rewrite !N.lxor_spec in H. destruct (N.testbit (pmul q GEN) i), (N.testbit r i), (N.testbit r' i); auto.
  - exfalso. apply pmul_size in E as [E _]. rewrite pmul_lxor in E.
    assert (X : N.lxor (pmul q GEN) (pmul q' GEN) = N.lxor r r').
    { apply bits_ext. intros i. apply (f_equal (fun x => N.testbit x i)) in H. rewrite !N.lxor_spec in *.
      destruct (N.testbit (pmul q GEN) i), (N.testbit (pmul q' GEN) i), (N.testbit r i), (N.testbit r' i); auto. }
    rewrite X in E. pose proof (lxor_lt r r' 32 Hr Hr').
    assert (1 <= 2 ^ N.log2 (N.lxor q q')) by (apply N.lt_pred_le || idtac; pose proof (N.pow_nonzero 2 (N.log2 (N.lxor q q'))); lia).
    nia.
Qed.

(** ** The register *)
Definition in_bit (c : N) (b : bool) : N := crc_bit (N.lxor c (N.b2n b)).
Fixpoint bitsn (n : nat) (b : N) : list bool :=
  match n with O => [] | S n => N.odd b :: bitsn n (N.div2 b) end.
Lemma crc_bit_double y : crc_bit (2 * y) = y.
Proof. unfold crc_bit. rewrite N.odd_mul. cbn [N.odd andb]. rewrite N.div2_div. rewrite N.mul_comm, N.div_mul by lia. reflexivity. Qed.
Lemma nat_iter_r {A} n (f : A -> A) x : Nat.iter (S n) f x = Nat.iter n f (f x).
Proof. induction n as [|n IH]; [reflexivity|]. cbn [Nat.iter nat_rect] in *. now rewrite IH. Qed.
Lemma iter_bits n : forall c b, Nat.iter n crc_bit (N.lxor c b) = N.lxor (fold_left in_bit (bitsn n b) c) (Nat.iter n N.div2 b).
Proof.
  induction n as [|n IH]; intros c b; [reflexivity|]. rewrite !nat_iter_r. cbn [bitsn fold_left].
  rewrite <- IH. f_equal. unfold in_bit.
  assert (E : b = N.lxor (N.b2n (N.odd b)) (2 * N.div2 b)).
  { pose proof (lxor_bit 0 (N.div2 b) (N.odd b) false) as X. cbn [N.b2n] in X. rewrite N.mul_0_r, N.add_0_l, N.add_0_r, N.lxor_0_l in X.
    rewrite X, xorb_false_r. apply N.div2_odd. }
  rewrite E at 1. rewrite <- N.lxor_assoc, crc_bit_lxor, crc_bit_double. reflexivity.
Qed.
Lemma crc_byte_bits c b : crc_byte c b = fold_left in_bit (byte_bits b) c.
Proof.
  unfold crc_byte. change (N.iter 8 crc_bit ?x) with (Nat.iter 8 crc_bit x). rewrite iter_bits.
  assert (E : byte_bits b = bitsn 8 (b2n b) /\ Nat.iter 8 N.div2 (b2n b) = 0) by (destruct b; split; reflexivity).
  destruct E as [-> ->]. apply N.lxor_0_r.
Qed.
Lemma crc_upd_bits d : forall c, crc_upd c d = fold_left in_bit (bits d) c.
Proof.
  unfold crc_upd, bits. induction d as [|b d IH]; intros c; [reflexivity|]. cbn [fold_left map concat].
  rewrite fold_left_app, <- crc_byte_bits. apply IH.
Qed.

Lemma poly_spec l : forall a i, N.testbit (fold_left (fun (a : N) (b : bool) => 2 * a + N.b2n b) l a) (N.of_nat i) =
  if (i <? length l)%nat then nth (length l - 1 - i) l false else N.testbit a (N.of_nat (i - length l)).
Proof.
  induction l as [|b l IH]; intros a i; cbn [fold_left length].
  - cbn. now rewrite Nat.sub_0_r.
  - rewrite IH. destruct (Nat.ltb_spec i (length l)) as [H|H].
    + replace (i <? S (length l))%nat with true by (symmetry; apply Nat.ltb_lt; lia).
      replace (S (length l) - 1 - i)%nat with (S (length l - 1 - i)) by lia. reflexivity.
    + destruct (Nat.eq_dec i (length l)) as [->|Hne].
      * rewrite Nat.sub_diag. change (N.of_nat 0) with 0. rewrite N.testbit_0_r.
        replace (length l <? S (length l))%nat with true by (symmetry; apply Nat.ltb_lt; lia).
        replace (S (length l) - 1 - length l)%nat with O by lia. reflexivity.
      * replace (i <? S (length l))%nat with false by (symmetry; apply Nat.ltb_ge; lia).
        replace (i - length l)%nat with (S (i - S (length l))) by lia. rewrite Nnat.Nat2N.inj_succ. apply N.testbit_succ_r.
Qed.
Lemma rev32_spec c i : N.testbit (rev32 c) i = (i <? 32) && N.testbit c (31 - i).
Proof.
  unfold rev32, poly. rewrite <- (Nnat.N2Nat.id i) at 1. rewrite poly_spec. rewrite map_length, seq_length.
  destruct (Nat.ltb_spec (N.to_nat i) 32) as [H|H].
  - replace (i <? 32) with true by (symmetry; apply N.ltb_lt; lia). cbn [andb].
    rewrite nth_indep with (d' := N.testbit c (N.of_nat 0)) by (rewrite map_length, seq_length; lia).
    rewrite (map_nth (fun i => N.testbit c (N.of_nat i))). rewrite seq_nth by lia. f_equal. lia.
  - replace (i <? 32) with false by (symmetry; apply N.ltb_ge; lia). apply N.bits_0.
Qed.
Lemma rev32_lt c : rev32 c < 2 ^ 32.
Proof.
  destruct (N.eq_dec (rev32 c) 0) as [->|Hz]; [reflexivity|]. apply N.log2_lt_pow2; [lia|].
  destruct (N.lt_ge_cases (N.log2 (rev32 c)) 32) as [H|H]; [exact H|]. exfalso.
  pose proof (N.bit_log2 _ Hz) as E. rewrite rev32_spec in E. replace (_ <? 32) with false in E by (symmetry; apply N.ltb_ge; lia). discriminate.
Qed.
Lemma gen_bits i : i < 32 -> N.testbit GEN i = N.testbit CRC_POLY (31 - i).
Proof.
  intros H. assert (E : forallb (fun k => Bool.eqb (N.testbit GEN (N.of_nat k)) (N.testbit CRC_POLY (31 - N.of_nat k))) (seq 0 32) = true)
    by (vm_compute; reflexivity).
  rewrite forallb_forall in E. specialize (E (N.to_nat i)). rewrite Nnat.N2Nat.id in E. apply eqb_prop, E, in_seq. lia.
Qed.
Lemma above c n i : c < 2 ^ n -> n <= i -> N.testbit c i = false.
Proof.
  intros H Hi. destruct (N.eq_dec c 0) as [->|Hz]; [apply N.bits_0|]. apply N.bits_above_log2.
  apply N.log2_lt_pow2 in H; lia.
Qed.
Lemma register_step c b : c < 2 ^ 32 ->
  N.lxor (2 * rev32 c) (N.b2n b * 2 ^ 32) =
  N.lxor (if xorb (N.odd c) b then GEN else 0) (rev32 (in_bit c b)).
Proof.
  intros Hc. apply bits_ext. intros i. rewrite !N.lxor_spec, rev32_spec.
  set (t := xorb (N.odd c) b).
  assert (Hin : forall j, N.testbit (in_bit c b) j = xorb (N.testbit c (N.succ j)) (t && N.testbit CRC_POLY j)).
  { intros j. unfold in_bit, crc_bit. rewrite odd_lxor.
    assert (Eb : N.odd (N.b2n b) = b) by now destruct b. rewrite Eb. fold t.
    assert (Ed : N.testbit (N.div2 (N.lxor c (N.b2n b))) j = N.testbit c (N.succ j)).
    { rewrite N.div2_spec, N.shiftr_spec by lia. rewrite N.add_1_r, N.lxor_spec.
      assert (X : N.testbit (N.b2n b) (N.succ j) = false) by (apply (above _ 1); [destruct b; reflexivity|lia]). now rewrite X, xorb_false_r. }
    destruct t; cbn [andb].
    - now rewrite N.lxor_spec, Ed.
    - now rewrite Ed, xorb_false_r. }
  destruct (N.ltb_spec i 32) as [Hi|Hi]; cbn [andb].
  - rewrite Hin. rewrite N.mul_pow2_bits_low by exact Hi. rewrite xorb_false_r.
    destruct (N.zero_or_succ i) as [->|(j & ->)].
    + rewrite N.testbit_even_0. rewrite (above c 32) by (try exact Hc; lia).
      destruct t; cbn [andb xorb]; [|now rewrite N.bits_0]. rewrite (gen_bits 0) by lia. now destruct (N.testbit CRC_POLY (31 - 0)).
    + rewrite N.double_bits_succ, rev32_spec. replace (j <? 32) with true by (symmetry; apply N.ltb_lt; lia). cbn [andb].
      replace (N.succ (31 - N.succ j)) with (31 - j) by lia.
      destruct t; cbn [andb xorb]; [|now rewrite N.bits_0, xorb_false_l, xorb_false_r].
      rewrite (gen_bits (N.succ j)) by exact Hi. destruct (N.testbit CRC_POLY _), (N.testbit c _); reflexivity.
  - rewrite xorb_false_r. rewrite N.mul_pow2_bits_high by exact Hi.
    destruct (N.eq_dec i 32) as [->|Hne].
    + change (32 - 32) with 0. change 32 with (N.succ 31) at 1. rewrite N.double_bits_succ, rev32_spec.
      change (31 <? 32) with true. change (31 - 31) with 0. cbn [andb]. rewrite N.bit0_odd.
      assert (Eb : N.testbit (N.b2n b) 0 = b) by now destruct b. rewrite Eb. fold t. destruct t; [reflexivity|now rewrite N.bits_0].
    + rewrite (above (2 * rev32 c) 33) by (try lia; pose proof (rev32_lt c); change (2 ^ 33) with (2 * 2 ^ 32); lia).
      rewrite (above (N.b2n b) 1) by (try lia; destruct b; reflexivity).
      destruct t; [|now rewrite N.bits_0]. rewrite (above GEN 33); [reflexivity|vm_compute; reflexivity|lia].
Qed.
Lemma in_bit_lt c b : c < 2 ^ 32 -> in_bit c b < 2 ^ 32.
Proof. intros H. apply crc_bit_lt. apply (lxor_lt _ _ 32); [exact H|]. destruct b; reflexivity. Qed.

Lemma division l : forall c q A I n, c < 2 ^ 32 ->
  N.lxor (A * 2 ^ 32) (I * 2 ^ n) = N.lxor (pmul q GEN) (rev32 c) ->
  exists q', N.lxor (fold_left (fun (a : N) (b : bool) => 2 * a + N.b2n b) l A * 2 ^ 32) (I * 2 ^ (n + lenN l)) =
    N.lxor (pmul q' GEN) (rev32 (fold_left in_bit l c)).
Proof.
  induction l as [|b l IH]; intros c q A I n Hc H; cbn [fold_left].
  - exists q. now rewrite N.add_0_r.
  - rewrite lenN_cons, N.add_assoc.
    apply (IH (in_bit c b) (2 * q + N.b2n (xorb (N.odd c) b))); [now apply in_bit_lt|].
    rewrite pmul_step, N.lxor_assoc, (N.lxor_comm (2 * _) (rev32 _)), <- N.lxor_assoc, <- register_step by exact Hc.
    replace ((2 * A + N.b2n b) * 2 ^ 32) with (N.lxor (2 * (A * 2 ^ 32)) (N.b2n b * 2 ^ 32)).
    + rewrite N.pow_add_r. change (2 ^ 1) with 2. replace (I * (2 ^ n * 2)) with (2 * (I * 2 ^ n)) by lia.
      apply (f_equal (N.mul 2)) in H. rewrite !double_lxor in H.
      rewrite N.lxor_assoc, (N.lxor_comm (N.b2n b * _)), <- N.lxor_assoc, H.
      apply bits_ext. intros i. rewrite !N.lxor_spec.
      destruct (N.testbit (2 * pmul q GEN) i), (N.testbit (2 * rev32 c) i), (N.testbit (N.b2n b * 2 ^ 32) i); reflexivity.
    + rewrite N.mul_assoc. rewrite <- !N.shiftl_mul_pow2, <- N.shiftl_lxor. f_equal.
      pose proof (lxor_bit A 0 false b) as X. cbn [N.b2n] in X. rewrite N.mul_0_r, N.add_0_l, N.add_0_r, N.lxor_0_r, xorb_false_l in X. exact X.
Qed.
Lemma rev32_invol c : c < 2 ^ 32 -> rev32 (rev32 c) = c.
Proof.
  intros Hc. apply bits_ext. intros i. rewrite !rev32_spec. destruct (N.ltb_spec i 32) as [H|H]; cbn [andb].
  - replace (31 - i <? 32) with true by (symmetry; apply N.ltb_lt; lia). cbn [andb]. f_equal. lia.
  - symmetry. now apply (above c 32).
Qed.

Theorem crc32_is d : is_crc32 d (crc32 d).
Proof.
  destruct (division (bits d) ONES 0 0 ONES 0) as (q & H).
  - reflexivity.
  - vm_compute. reflexivity.
  - exists q, (rev32 (fold_left in_bit (bits d) ONES)). split; [apply rev32_lt|]. rewrite N.add_0_l in H. split; [exact H|].
    rewrite rev32_invol.
    + unfold crc32, zcrc32. rewrite N.lxor_0_l, crc_upd_bits. reflexivity.
    + rewrite <- crc_upd_bits. apply crc_upd_lt. reflexivity.
Qed.
Theorem is_crc32_unique d c c' : is_crc32 d c -> is_crc32 d c' -> c = c'.
Proof.
  intros (q & r & Hr & H & ->) (q' & r' & Hr' & H' & ->). rewrite H in H'. now rewrite (rem_unique q r q' r').
Qed.

Lemma crc_file_loop_ok fuel : forall rest acc, (length rest < fuel)%nat -> acc < 4294967296 ->
  crc_file_loop fuel rest acc = Ok (zcrc32 rest acc).
Proof.
  induction fuel as [|fuel IH]; intros rest acc Hf Ha; [lia|]. cbn [crc_file_loop].
  destruct (takeN 65536 rest) as [|b l] eqn:E.
  - assert (rest = []). { apply (f_equal lenN) in E. rewrite lenN_takeN in E. apply lenN_0. change (lenN []) with 0 in E. lia. }
    subst rest. f_equal. unfold zcrc32, crc_upd. cbn [fold_left]. rewrite N.lxor_assoc, N.lxor_nilpotent, N.lxor_0_r.
    change MASK32 with (N.ones 32). rewrite N.land_ones. now apply N.mod_small.
  - rewrite IH.
    + rewrite <- E, <- zcrc32_app, takeN_dropN. reflexivity.
    + assert (lenN (dropN 65536 rest) < lenN rest).
      { rewrite lenN_dropN. apply (f_equal lenN) in E. rewrite lenN_takeN, lenN_cons in E. lia. }
      rewrite !lenN_length in H. lia.
    + apply zcrc32_lt. exact Ha.
Qed.
Theorem calculate_crc32_ok d : calculate_crc32 d = Ok (crc32 d).
Proof. unfold calculate_crc32. rewrite crc_file_loop_ok; [reflexivity|lia|reflexivity]. Qed.
Theorem file_crc d c : calculate_crc32 d = Ok c <-> is_crc32 d c.
Proof.
  rewrite calculate_crc32_ok. split.
  - intros H. apply ok_inj in H. subst c. apply crc32_is.
  - intros H. f_equal. exact (is_crc32_unique d _ _ (crc32_is d) H).
Qed.
Theorem combine_thm a b ca cb c : is_crc32 a ca -> is_crc32 b cb ->
  crc32_combine ca cb (lenN b) = Ok c <-> is_crc32 (a ++ b) c.
Proof.
  intros Ha Hb. rewrite (is_crc32_unique a ca (crc32 a) Ha (crc32_is a)), (is_crc32_unique b cb (crc32 b) Hb (crc32_is b)), combine_ok.
  split.
  - intros H. apply ok_inj in H. subst c. apply crc32_is.
  - intros H. f_equal. exact (is_crc32_unique _ _ _ (crc32_is _) H).
Qed.
