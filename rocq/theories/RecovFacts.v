(** RecovFacts: _write_recovery_record computes [rr_data]. *)
From Verif Require Import Base BaseFacts Crc RecovSpec Srr.

(** ** numbers in bytes *)
Lemma from_big_unbe l : int_from_bytes_big l = unbe l.
Proof.
  unfold int_from_bytes_big, unbe. rewrite <- (rev_involutive l) at 1. induction (rev l) as [|b r IH]; [reflexivity|].
  cbn [rev]. rewrite fold_left_app. cbn [fold_left unle]. rewrite IH. lia.
Qed.
Lemma to_big_be k : forall n, int_to_bytes_big k n = be k n.
Proof.
  induction k as [|k IH]; intros n; [reflexivity|]. unfold be in *. cbn [int_to_bytes_big le rev]. rewrite IH.
  f_equal. f_equal. apply b2n_inj. rewrite !b2n_n2b. rewrite N.mod_mod; lia.
Qed.
Lemma testbit_le_low a x n : x < 256 -> n < 8 -> N.testbit (x + 256 * a) n = N.testbit x n.
Proof.
  intros Hx Hn. rewrite <- (N.mod_pow2_bits_low (x + 256 * a) 8 n Hn).
  change (2 ^ 8) with 256. replace ((x + 256 * a) mod 256) with x by lia. reflexivity.
Qed.
Lemma testbit_le_high a x n : x < 256 -> 8 <= n -> N.testbit (x + 256 * a) n = N.testbit a (n - 8).
Proof.
  intros Hx Hn. replace n with ((n - 8) + 8) at 1 by lia. rewrite <- N.div_pow2_bits. change (2 ^ 8) with 256.
  replace ((x + 256 * a) / 256) with a by lia. reflexivity.
Qed.
Lemma lxor_lt a b n : a < 2 ^ n -> b < 2 ^ n -> N.lxor a b < 2 ^ n.
Proof.
  intros Ha Hb. destruct (N.eq_dec (N.lxor a b) 0) as [E|E]; [rewrite E; apply N.neq_0_lt_0; apply N.pow_nonzero; lia|].
  apply N.log2_lt_pow2; [lia|]. eapply N.le_lt_trans; [apply N.log2_lxor|].
  destruct (N.eq_dec n 0) as [->|Hn].
  { change (2 ^ 0) with 1 in *. assert (a = 0) by lia. assert (b = 0) by lia. subst. exfalso. now apply E. }
  apply N.max_lub_lt.
  - destruct (N.eq_dec a 0) as [->|H]; [change (N.log2 0) with 0; lia|]. apply N.log2_lt_pow2; lia.
  - destruct (N.eq_dec b 0) as [->|H]; [change (N.log2 0) with 0; lia|]. apply N.log2_lt_pow2; lia.
Qed.
Lemma lxor_le a b x y : x < 256 -> y < 256 ->
  N.lxor (x + 256 * a) (y + 256 * b) = N.lxor x y + 256 * N.lxor a b.
Proof.
  intros Hx Hy. assert (Hxy : N.lxor x y < 256) by (apply (lxor_lt x y 8); assumption).
  apply N.bits_inj. intros n. rewrite N.lxor_spec. destruct (N.lt_ge_cases n 8) as [H|H].
  - rewrite !testbit_le_low by assumption. now rewrite N.lxor_spec.
  - rewrite !testbit_le_high by assumption. now rewrite N.lxor_spec.
Qed.
Definition bxor (a b : byte) : byte := n2b (N.lxor (b2n a) (b2n b)).
Lemma b2n_bxor a b : b2n (bxor a b) = N.lxor (b2n a) (b2n b).
Proof. unfold bxor. apply b2n_n2b_small. apply (lxor_lt _ _ 8); apply b2n_lt. Qed.
Fixpoint map2 {A B C} (f : A -> B -> C) (a : list A) (b : list B) : list C :=
  match a, b with x :: a', y :: b' => f x y :: map2 f a' b' | _, _ => [] end.
Lemma unle_xor a : forall b, length a = length b -> unle (map2 bxor a b) = N.lxor (unle a) (unle b).
Proof.
  induction a as [|x a IH]; intros [|y b] H; try discriminate; [reflexivity|].
  cbn [map2 unle]. rewrite IH by (cbn in H; lia). rewrite b2n_bxor. symmetry. apply lxor_le; apply b2n_lt.
Qed.
Lemma map2_length {A B C} (f : A -> B -> C) a : forall b, length a = length b -> length (map2 f a b) = length a.
Proof. induction a as [|x a IH]; intros [|y b] H; try discriminate; [reflexivity|]. cbn in *. rewrite IH; lia. Qed.
Lemma map2_app {A B C} (f : A -> B -> C) a b : forall a' b', length a = length a' ->
  map2 f (a ++ b) (a' ++ b') = map2 f a a' ++ map2 f b b'.
Proof.
  induction a as [|x a IH]; intros [|y a'] b' H; try discriminate; [reflexivity|]. cbn. now rewrite IH by (cbn in H; lia).
Qed.
Lemma map2_rev {A B C} (f : A -> B -> C) a : forall b, length a = length b -> map2 f (rev a) (rev b) = rev (map2 f a b).
Proof.
  induction a as [|x a IH]; intros [|y b] H; try discriminate; [reflexivity|]. cbn [rev map2].
  rewrite map2_app by (rewrite !rev_length; cbn in H; lia). rewrite IH by (cbn in H; lia). reflexivity.
Qed.
Lemma unbe_xor a b : length a = length b -> unbe (map2 bxor a b) = N.lxor (unbe a) (unbe b).
Proof.
  intros H. unfold unbe. rewrite <- map2_rev by assumption. apply unle_xor. now rewrite !rev_length.
Qed.
Lemma map2_map {A B C D} (f : A -> B -> C) (g : D -> A) (h : D -> B) l :
  map2 f (map g l) (map h l) = map (fun x => f (g x) (h x)) l.
Proof. induction l as [|x l IH]; [reflexivity|]. cbn. now rewrite IH. Qed.

(** ** set_nth *)
Lemma set_nth_length {A} i (x : A) l : length (set_nth i x l) = length l.
Proof. revert i; induction l as [|y l IH]; intros [|i]; cbn; auto. Qed.
Lemma nth_set_nth {A} i j (x d : A) : forall l, (i < length l)%nat ->
  nth j (set_nth i x l) d = if Nat.eqb i j then x else nth j l d.
Proof.
  revert j. induction i as [|i IH]; intros [|j] [|y l] H; cbn in *; try lia; try reflexivity. apply IH. lia.
Qed.
Lemma set_nth_app {A} (a b : list A) x y : set_nth (length a) x (a ++ y :: b) = a ++ x :: b.
Proof. induction a as [|z a IH]; cbn; [reflexivity|now rewrite IH]. Qed.

(** ** sectors *)
Lemma nth_dropN {A} n (l : list A) j d : nth j (dropN n l) d = nth (N.to_nat n + j) l d.
Proof.
  rewrite dropN_skipn. revert l. induction (N.to_nat n) as [|k IH]; intros l; [reflexivity|].
  destruct l; [now destruct j|]. cbn. apply IH.
Qed.
Lemma nth_takeN {A} n (l : list A) j d : (j < N.to_nat n)%nat -> nth j (takeN n l) d = nth j l d.
Proof.
  rewrite takeN_firstn. revert l j. induction (N.to_nat n) as [|k IH]; intros l j H; [lia|].
  destruct l as [|x l]; [reflexivity|]. destruct j as [|j]; [reflexivity|]. cbn. apply IH. lia.
Qed.
Lemma length_lenN {A} (l : list A) : length l = N.to_nat (lenN l).
Proof. rewrite lenN_length. lia. Qed.
Lemma sector_cut d k rest : rest = dropN (512 * N.of_nat k) d ->
  takeN 512 rest ++ repN (512 - lenN (takeN 512 rest)) x00 = sector d k.
Proof.
  intros ->. set (r := dropN (512 * N.of_nat k) d). apply (nth_ext _ _ x00 x00).
  - unfold sector. rewrite map_length, seq_length, app_length, !length_lenN, lenN_repN, lenN_takeN. lia.
  - intros j Hj. assert (Hj' : (j < 512)%nat).
    { rewrite app_length, !length_lenN, lenN_repN, lenN_takeN in Hj. lia. }
    clear Hj. unfold sector.
    rewrite (nth_indep (map _ _) _ (nth (512 * k + 512) d x00)) by (rewrite map_length, seq_length; lia).
    rewrite (map_nth (fun j => nth (512 * k + j) d x00) (seq 0 512) 512%nat j).
    rewrite seq_nth by lia. cbn [Nat.add].
    destruct (Nat.lt_ge_cases j (length (takeN 512 r))) as [H|H].
    + rewrite app_nth1 by assumption. rewrite nth_takeN by lia. unfold r. rewrite nth_dropN. f_equal. lia.
    + rewrite app_nth2 by lia. unfold repN. rewrite nth_repeat.
      symmetry. apply nth_overflow.
      rewrite length_lenN, lenN_takeN in H. unfold r in H. rewrite lenN_dropN in H. rewrite length_lenN. lia.
Qed.
Lemma sector_length d k : length (sector d k) = 512%nat.
Proof. unfold sector. now rewrite map_length, seq_length. Qed.

(** ** parity *)
Definition psum (rs : nat) (d : bytes) (i m : nat) : bytes :=
  map (fun j => xor_bytes (map (fun k => nth (512 * k + j) d x00) (slice_sectors rs i m))) (seq 0 512).
Lemma xor_app a b : N.lxor (fold_right (fun b a => N.lxor (b2n b) a) 0 a) (b2n b) =
  fold_right (fun b a => N.lxor (b2n b) a) 0 (a ++ [b]).
Proof.
  induction a as [|x a IH]; cbn [fold_right app]; [now rewrite N.lxor_0_l, N.lxor_0_r|].
  rewrite <- IH. now rewrite N.lxor_assoc.
Qed.
Lemma xor_fold_lt l : fold_right (fun b a => N.lxor (b2n b) a) 0 l < 256.
Proof. induction l as [|x l IH]; cbn [fold_right]; [lia|]. apply (lxor_lt _ _ 8); [apply b2n_lt|assumption]. Qed.
Lemma xor_bytes_snoc a b : xor_bytes (a ++ [b]) = bxor (xor_bytes a) b.
Proof.
  apply b2n_inj. rewrite b2n_bxor. unfold xor_bytes. rewrite !b2n_n2b_small by apply xor_fold_lt. symmetry. apply xor_app.
Qed.
Lemma slice_step rs i m : slice_sectors rs i (S m) = slice_sectors rs i m ++ (if Nat.eqb (m mod rs) i then [m] else []).
Proof.
  unfold slice_sectors. replace (S m) with (m + 1)%nat by lia. rewrite seq_app, filter_app. cbn [seq filter Nat.add].
  reflexivity.
Qed.
Lemma psum_other rs d i m : (m mod rs)%nat <> i -> psum rs d i (S m) = psum rs d i m.
Proof.
  intros H. unfold psum. rewrite slice_step. apply Nat.eqb_neq in H. rewrite H, app_nil_r. reflexivity.
Qed.
Lemma psum_same rs d m : psum rs d (m mod rs) (S m) = map2 bxor (psum rs d (m mod rs) m) (sector d m).
Proof.
  unfold psum, sector. rewrite map2_map. apply map_ext. intros j. rewrite slice_step, Nat.eqb_refl, map_app.
  cbn [map]. apply xor_bytes_snoc.
Qed.
Lemma psum_length rs d i m : length (psum rs d i m) = 512%nat.
Proof. unfold psum. now rewrite map_length, seq_length. Qed.

(** ** the loop *)
Definition sums (d : bytes) (m : nat) : bytes := concat (map (sector_sum d) (seq 0 m)).
Lemma sums_step d m : sums d (S m) = sums d m ++ sector_sum d m.
Proof.
  unfold sums. replace (S m) with (m + 1)%nat by lia. rewrite seq_app, map_app, concat_app. cbn [seq map concat Nat.add].
  now rewrite app_nil_r.
Qed.
Lemma sums_length d m : length (sums d m) = (2 * m)%nat.
Proof.
  induction m as [|m IH]; [reflexivity|]. rewrite sums_step, app_length, IH.
  rewrite (length_lenN (sector_sum d m)). unfold sector_sum. rewrite lenN_le. lia.
Qed.

(** ** CRC values *)
Lemma div2_lt c n : c < 2 ^ N.succ n -> N.div2 c < 2 ^ n.
Proof. intros H. rewrite N.pow_succ_r' in H. rewrite N.div2_div. lia. Qed.
Lemma crc_bit_lt c : c < 4294967296 -> crc_bit c < 4294967296.
Proof.
  intros H. unfold crc_bit. assert (N.div2 c < 2147483648) by (apply (div2_lt c 31); assumption).
  destruct (N.odd c); [|lia]. apply (lxor_lt _ _ 32); [change (2^32) with 4294967296; lia|reflexivity].
Qed.
Lemma iter_crc_bit_lt n c : c < 4294967296 -> N.iter n crc_bit c < 4294967296.
Proof. intros H. apply N.iter_invariant; [intros; now apply crc_bit_lt|assumption]. Qed.
Lemma crc_byte_lt c b : c < 4294967296 -> crc_byte c b < 4294967296.
Proof.
  intros H. unfold crc_byte. apply iter_crc_bit_lt. apply (lxor_lt _ _ 32); [assumption|].
  pose proof (b2n_lt b). change (2 ^ 32) with 4294967296. lia.
Qed.
Lemma crc_upd_lt l : forall c, c < 4294967296 -> crc_upd c l < 4294967296.
Proof.
  unfold crc_upd. induction l as [|b l IH]; intros c H; cbn [fold_left]; [assumption|]. apply IH. now apply crc_byte_lt.
Qed.
Lemma lxor_mask c : c < 4294967296 -> N.lxor c MASK32 = 4294967295 - c.
Proof.
  intros H. change MASK32 with (N.ones 32). change (N.lxor c (N.ones 32)) with (N.lnot c 32).
  rewrite N.lnot_sub_low; [reflexivity|]. destruct (N.eq_dec c 0) as [->|Hc]; [reflexivity|].
  apply N.log2_lt_pow2; [lia|exact H].
Qed.
Lemma zcrc32_lt d s : s < 4294967296 -> zcrc32 d s < 4294967296.
Proof.
  intros H. unfold zcrc32. apply (lxor_lt _ _ 32); [|reflexivity]. apply crc_upd_lt.
  apply (lxor_lt _ _ 32); [assumption|reflexivity].
Qed.
Lemma crc32_lt d : crc32 d < 4294967296.
Proof. apply zcrc32_lt. lia. Qed.

Lemma sum_values d k :
  let sc := N.land (N.lxor (crc32 (sector d k)) MASK32) 0xFFFF in
  sector_sum d k = [n2b (N.land sc 0xFF); n2b (N.shiftr sc 8)] /\ N.land sc 0xFF < 256 /\ N.shiftr sc 8 < 256.
Proof.
  cbn zeta. unfold sector_sum. rewrite lxor_mask by apply crc32_lt.
  set (v := 4294967295 - crc32 (sector d k)). change 0xFFFF with (N.ones 16). change 0xFF with (N.ones 8).
  rewrite !N.land_ones, N.shiftr_div_pow2. change (2 ^ 16) with 65536. change (2 ^ 8) with 256.
  set (u := v mod 65536). assert (Hu : u < 65536) by (unfold u; lia). clearbody u. split; [|lia].
  cbn [le]. f_equal. apply b2n_inj; rewrite !b2n_n2b; lia.
Qed.

Lemma nth_map_seq {A} (f : nat -> A) n i d : (i < n)%nat -> nth i (map f (seq 0 n)) d = f i.
Proof.
  intros H. rewrite (nth_indep _ d (f n)) by (rewrite map_length, seq_length; lia). rewrite map_nth, seq_nth by lia.
  reflexivity.
Qed.

Lemma rr_loop_ok d rs nds : (0 < rs)%nat -> forall fuel m,
  (m <= sector_count d)%nat -> (sector_count d <= nds)%nat -> (sector_count d - m < fuel)%nat ->
  rr_loop fuel (dropN (512 * N.of_nat m) d) (N.of_nat m) (N.of_nat (m mod rs)) (N.of_nat rs)
    (map b2n (sums d m) ++ repeat 0 (2 * (nds - m)))
    (map (fun i => unbe (psum rs d i m)) (seq 0 rs)) =
  Ok (map b2n (sums d (sector_count d)) ++ repeat 0 (2 * (nds - sector_count d)),
      map (fun i => unbe (psum rs d i (sector_count d))) (seq 0 rs)).
Proof.
  intros Hrs. induction fuel as [|fuel IH]; intros m Hm Hn Hf; [lia|].
  assert (Hc : (sector_count d = m <-> lenN d <= 512 * N.of_nat m)).
  { unfold sector_count in *. rewrite length_lenN in *. split; intros; lia. }
  cbn [rr_loop]. destruct (dropN (512 * N.of_nat m) d) as [|x rest] eqn:E.
  - assert (sector_count d = m).
    { apply Hc. apply (f_equal lenN) in E. rewrite lenN_dropN, lenN_nil in E. lia. }
    subst m. reflexivity.
  - rewrite <- E. assert (Hne : sector_count d <> m).
    { intros H. apply Hc in H. apply (f_equal lenN) in E. rewrite lenN_dropN, lenN_cons in E. lia. }
    rewrite (sector_cut d m _ eq_refl).
    destruct (sum_values d m) as (Es & H1 & H2). cbn zeta in Es, H1, H2.
    set (sc := N.land (N.lxor (crc32 (sector d m)) MASK32) 0xFFFF) in *. clearbody sc.
    assert (Hlen : lenN (map b2n (sums d m) ++ repeat 0 (2 * (nds - m))) = N.of_nat (2 * nds)).
    { rewrite lenN_length, app_length, map_length, repeat_length, sums_length. lia. }
    rewrite Hlen. destruct (N.leb_spec (N.of_nat (2 * nds)) (N.of_nat m * 2 + 1)) as [H|H]; [lia|].
    assert (Hcrc : set_nth (N.to_nat (N.of_nat m * 2 + 1)) (N.shiftr sc 8)
       (set_nth (N.to_nat (N.of_nat m * 2)) (N.land sc 255) (map b2n (sums d m) ++ repeat 0 (2 * (nds - m))))
       = map b2n (sums d (S m)) ++ repeat 0 (2 * (nds - S m))).
    { replace (2 * (nds - m))%nat with (S (S (2 * (nds - S m)))) by lia. cbn [repeat].
      replace (N.to_nat (N.of_nat m * 2)) with (length (map b2n (sums d m))) by (rewrite map_length, sums_length; lia).
      rewrite set_nth_app.
      change (N.land sc 255 :: 0 :: repeat 0 (2 * (nds - S m))) with ([N.land sc 255] ++ 0 :: repeat 0 (2 * (nds - S m))).
      rewrite app_assoc.
      replace (N.to_nat (N.of_nat m * 2 + 1)) with (length (map b2n (sums d m) ++ [N.land sc 255]))
        by (rewrite app_length, map_length, sums_length; cbn; lia).
      rewrite set_nth_app. rewrite sums_step, map_app, Es. cbn [map]. rewrite !b2n_n2b_small by assumption.
      rewrite <- !app_assoc. reflexivity. }
    rewrite Hcrc. clear Hcrc.
    assert (Hsl : (m mod rs < rs)%nat) by (apply Nat.mod_upper_bound; lia).
    assert (Hrsl : set_nth (N.to_nat (N.of_nat (m mod rs)))
        (N.lxor (nth (N.to_nat (N.of_nat (m mod rs))) (map (fun i => unbe (psum rs d i m)) (seq 0 rs)) 0)
                (int_from_bytes_big (sector d m)))
        (map (fun i => unbe (psum rs d i m)) (seq 0 rs))
        = map (fun i => unbe (psum rs d i (S m))) (seq 0 rs)).
    { rewrite Nat2N.id. rewrite nth_map_seq by assumption. rewrite from_big_unbe.
      rewrite <- unbe_xor by (rewrite psum_length, sector_length; reflexivity). rewrite <- psum_same.
      apply (nth_ext _ _ 0 0); [rewrite set_nth_length, !map_length; reflexivity|].
      intros i Hi. rewrite set_nth_length, map_length, seq_length in Hi.
      rewrite nth_set_nth by (rewrite map_length, seq_length; assumption).
      rewrite !nth_map_seq by assumption. destruct (Nat.eqb_spec (m mod rs) i) as [Hx|Hx]; [now rewrite Hx|].
      now rewrite psum_other. }
    rewrite Hrsl. clear Hrsl.
    assert (Hnext : (if (N.of_nat (m mod rs) + 1) mod N.of_nat rs =? 0 then 0 else N.of_nat (m mod rs) + 1)
                    = N.of_nat (S m mod rs)).
    { assert (Hadd : (S m mod rs = (m mod rs + 1) mod rs)%nat).
      { replace (S m) with (m + 1)%nat by lia. now rewrite Nat.add_mod_idemp_l by lia. }
      rewrite Hadd. set (q := (m mod rs)%nat) in *. clearbody q. clear Hadd.
      destruct (N.eqb_spec ((N.of_nat q + 1) mod N.of_nat rs) 0) as [Hz|Hz].
      - destruct (Nat.eq_dec (q + 1) rs) as [->|Hq]; [rewrite Nat.mod_same by lia; reflexivity|].
        rewrite N.mod_small in Hz by lia. lia.
      - destruct (Nat.eq_dec (q + 1) rs) as [Hq|Hq].
        + exfalso. apply Hz. replace (N.of_nat q + 1) with (N.of_nat rs) by lia. apply N.mod_same. lia.
        + rewrite Nat.mod_small by lia. lia. }
    rewrite Hnext. rewrite dropN_dropN. replace (512 + 512 * N.of_nat m) with (512 * N.of_nat (S m)) by lia.
    replace (N.of_nat m + 1) with (N.of_nat (S m)) by lia. apply IH; lia.
Qed.
Lemma rr_loop_short d rs nds : (0 < rs)%nat -> forall fuel m crc prs sl,
  (m <= nds)%nat -> (nds < sector_count d)%nat -> (nds - m < fuel)%nat -> lenN crc = N.of_nat (2 * nds) ->
  rr_loop fuel (dropN (512 * N.of_nat m) d) (N.of_nat m) sl (N.of_nat rs) crc prs = Err IndexError.
Proof.
  intros Hrs. induction fuel as [|fuel IH]; intros m crc prs sl Hm Hn Hf Hl; [lia|].
  cbn [rr_loop]. destruct (dropN (512 * N.of_nat m) d) as [|x rest] eqn:E.
  - exfalso. apply (f_equal lenN) in E. rewrite lenN_dropN, lenN_nil in E.
    unfold sector_count in Hn. rewrite length_lenN in Hn. lia.
  - rewrite <- E. destruct (N.leb_spec (lenN crc) (N.of_nat m * 2 + 1)) as [H|H]; [reflexivity|].
    rewrite dropN_dropN. replace (512 + 512 * N.of_nat m) with (512 * N.of_nat (S m)) by lia.
    replace (N.of_nat m + 1) with (N.of_nat (S m)) by lia. apply IH; try lia.
    rewrite !lenN_length, !set_nth_length, <- lenN_length. exact Hl.
Qed.

Theorem recovery_bytes_ok raw rs ds d : 0 < rs -> d <> [] ->
  recovery_bytes raw rs ds d =
  if N.of_nat (sector_count d) <=? ds then Ok (raw ++ rr_data (N.to_nat rs) (N.to_nat ds) d) else Err IndexError.
Proof.
  intros Hrs Hd. unfold recovery_bytes.
  assert (Hl : lenN d <> 0) by (destruct d; [congruence|rewrite lenN_cons; lia]).
  destruct (N.eqb_spec (lenN d) 0) as [H|_]; [congruence|].
  assert (Hsc : (sector_count d <= length d)%nat).
  { unfold sector_count. rewrite length_lenN. lia. }
  destruct (N.leb_spec (N.of_nat (sector_count d)) ds) as [H|H].
  - pose proof (rr_loop_ok d (N.to_nat rs) (N.to_nat ds) ltac:(lia) (S (length d)) 0 ltac:(lia) ltac:(lia) ltac:(lia)) as L.
    change (512 * N.of_nat 0) with 0 in L. rewrite dropN_0 in L. change (N.of_nat 0) with 0 in L.
    rewrite Nat.mod_0_l in L by lia. change (N.of_nat 0) with 0 in L. rewrite N2Nat.id in L.
    replace (map b2n (sums d 0) ++ repeat 0 (2 * (N.to_nat ds - 0))) with (repN (ds * 2) 0) in L
      by (unfold repN; cbn [sums seq map concat app]; f_equal; lia).
    replace (map (fun i => unbe (psum (N.to_nat rs) d i 0)) (seq 0 (N.to_nat rs))) with (repN rs 0) in L.
    2:{ unfold repN. generalize (N.to_nat rs) at 2. intros k.
        assert (G : forall n s, repeat 0 n = map (fun i => unbe (psum k d i 0)) (seq s n)).
        { induction n as [|n IH]; intros s; cbn [repeat seq map]; [reflexivity|]. rewrite <- IH. f_equal. }
        apply G. }
    rewrite L. cbn [bind]. f_equal. f_equal. unfold rr_data. rewrite map_app, map_map.
    rewrite (map_ext (fun x => n2b (b2n x)) (fun x => x)) by apply n2b_b2n. rewrite map_id.
    rewrite <- app_assoc. f_equal. f_equal.
    + generalize (2 * (N.to_nat ds - sector_count d))%nat. intros n.
      induction n as [|n IH]; [reflexivity|]. cbn [repeat map]. now rewrite IH.
    + rewrite map_map. f_equal. apply map_ext. intros i. rewrite to_big_be.
      replace 512%nat with (length (psum (N.to_nat rs) d i (sector_count d))) at 1 by apply psum_length.
      rewrite be_unbe. reflexivity.
  - pose proof (rr_loop_short d (N.to_nat rs) (N.to_nat ds) ltac:(lia) (S (length d)) 0 (repN (ds * 2) 0) (repN rs 0) 0
      ltac:(lia) ltac:(lia) ltac:(lia) ltac:(rewrite lenN_repN; lia)) as L.
    change (512 * N.of_nat 0) with 0 in L. rewrite dropN_0 in L. change (N.of_nat 0) with 0 in L.
    rewrite N2Nat.id in L. now rewrite L.
Qed.
