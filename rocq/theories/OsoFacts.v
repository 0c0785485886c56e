From Verif Require Import Base BaseFacts SrrSpec Rar Oso OsoSpec RecovFacts.

Lemma hex_digit_nth d : d < 16 -> hex_digit d = nth (N.to_nat d) HEX 0.
Proof.
  intros H. assert (E : forallb (fun k => hex_digit (N.of_nat k) =? nth k HEX 0) (seq 0 16) = true) by (vm_compute; reflexivity).
  rewrite forallb_forall in E. specialize (E (N.to_nat d)). rewrite Nnat.N2Nat.id in E. apply N.eqb_eq, E, in_seq. lia.
Qed.
Lemma hex_fmt_spec k : forall n, n < 16 ^ N.of_nat k ->
  exists ds, length ds = k /\ Forall (fun d => (d < 16)%nat) ds /\ hex_fmt k n = map (fun d => nth d HEX 0) ds /\
    n = fold_left (fun a d => 16 * a + N.of_nat d) ds 0.
Proof.
  induction k as [|k IH]; intros n H.
  - exists []. change (16 ^ N.of_nat 0) with 1 in H. repeat split; [constructor|]. cbn. lia.
  - rewrite Nnat.Nat2N.inj_succ, N.pow_succ_r' in H. destruct (IH (n / 16)) as (ds & A & B & C & D).
    + apply N.div_lt_upper_bound; lia.
    + exists (ds ++ [N.to_nat (n mod 16)]). rewrite app_length, map_app, fold_left_app, A. cbn [hex_fmt length map fold_left].
      split; [lia|]. split; [apply Forall_app; split; [exact B|]; constructor; [|constructor]; assert (n mod 16 < 16) by (apply N.mod_lt; lia); lia|].
      rewrite C. split; [f_equal; f_equal; apply hex_digit_nth, N.mod_lt; lia|]. rewrite <- D, Nnat.N2Nat.id. apply N.div_mod'.
Qed.

Lemma word_sub d i : (8 * i + 8 <= length d)%nat -> unle (sub (8 * N.of_nat i) 8 d) = word d i.
Proof.
  intros H. unfold sub. set (s := dropN (8 * N.of_nat i) d).
  assert (Hs : forall j, nth j s x00 = nth (8 * i + j) d x00).
  { intros j. unfold s. rewrite nth_dropN. f_equal. lia. }
  assert (Hl : (8 <= length s)%nat).
  { unfold s. pose proof (lenN_dropN (8 * N.of_nat i) d) as E. rewrite !lenN_length in E. lia. }
  unfold word. cbn [seq fold_right]. rewrite <- !Hs. clear Hs.
  clearbody s. destruct s as [|c0 s]; [cbn in Hl; lia|]. destruct s as [|c1 s]; [cbn in Hl; lia|]. destruct s as [|c2 s]; [cbn in Hl; lia|]. destruct s as [|c3 s]; [cbn in Hl; lia|]. destruct s as [|c4 s]; [cbn in Hl; lia|]. destruct s as [|c5 s]; [cbn in Hl; lia|]. destruct s as [|c6 s]; [cbn in Hl; lia|]. destruct s as [|c7 s]; [cbn in Hl; lia|].
  clear.
  assert (E : takeN 8 (c0 :: c1 :: c2 :: c3 :: c4 :: c5 :: c6 :: c7 :: s) = [c0; c1; c2; c3; c4; c5; c6; c7])
    by (rewrite takeN_firstn; reflexivity).
  rewrite E. cbn [unle nth].
  change (N.of_nat 0) with 0. change (N.of_nat 1) with 1. change (N.of_nat 2) with 2. change (N.of_nat 3) with 3.
  change (N.of_nat 4) with 4. change (N.of_nat 5) with 5. change (N.of_nat 6) with 6. change (N.of_nat 7) with 7.
  change (256 ^ 0) with 1. change (256 ^ 1) with 256. change (256 ^ 2) with 65536. change (256 ^ 3) with 16777216.
  change (256 ^ 4) with 4294967296. change (256 ^ 5) with 1099511627776. change (256 ^ 6) with 281474976710656.
  change (256 ^ 7) with 72057594037927936. lia.
Qed.

Lemma unpack_word d i : (8 * i + 8 <= length d)%nat -> unpack 8 d (8 * N.of_nat i) = Ok (word d i).
Proof.
  intros H. unfold unpack. change (N.of_nat 8) with 8.
  replace (lenN (sub (8 * N.of_nat i) 8 d) =? 8) with true.
  - f_equal. now apply word_sub.
  - symmetry. apply N.eqb_eq. unfold sub. rewrite lenN_takeN, lenN_dropN, lenN_length. lia.
Qed.

Definition sum_from (d : bytes) (i k : nat) : N := fold_right N.add 0 (map (word d) (seq i k)).
Lemma hash_loop_spec b e k : forall i h, (8 * (i + k) <= length b)%nat -> (8 * (i + k) <= length e)%nat -> (0 < k)%nat ->
  hash_loop k (8 * N.of_nat i) b e h = Ok ((h + sum_from b i k + sum_from e i k) mod 2 ^ 64).
Proof.
  assert (Hm : forall x, N.land x 0xFFFFFFFFFFFFFFFF = x mod 2 ^ 64).
  { intros x. change 0xFFFFFFFFFFFFFFFF with (N.ones 64). apply N.land_ones. }
  induction k as [|k IH]; intros i h Hb He Hk; [lia|]. cbn [hash_loop].
  rewrite !unpack_word by lia. cbn [bind]. rewrite !Hm.
  unfold sum_from. cbn [seq map fold_right]. fold (sum_from b (S i) k) (sum_from e (S i) k).
  assert (Hm0 : 2 ^ 64 <> 0) by discriminate.
  replace (((h + word b i) mod 2 ^ 64 + word e i) mod 2 ^ 64) with ((h + word b i + word e i) mod 2 ^ 64) by (symmetry; now rewrite N.add_mod_idemp_l).
  destruct k as [|k].
  - cbn [hash_loop]. unfold sum_from. cbn [seq map fold_right]. do 2 f_equal. lia.
  - replace (8 * N.of_nat i + 8) with (8 * N.of_nat (S i)) by lia. rewrite IH by lia. f_equal.
    rewrite <- N.add_assoc. rewrite N.add_mod_idemp_l by exact Hm0. f_equal. lia.
Qed.

Lemma word_take d i : N.of_nat i < 8192 -> word (takeN 65536 d) i = word d i.
Proof.
  intros H. unfold word. cbn [seq fold_right]. rewrite !nth_takeN by lia. reflexivity.
Qed.
Lemma sum_take d : sum_from (takeN 65536 d) 0 (N.to_nat 8192) = words_sum d.
Proof.
  unfold sum_from, words_sum. f_equal. apply map_ext_in. intros i Hi. apply in_seq in Hi. apply word_take. lia.
Qed.

Theorem oso_short d : lenN d < 65536 -> osorg_hash d = Err ValueError.
Proof. intros H. unfold osorg_hash. now rewrite (proj2 (N.ltb_lt _ _) H). Qed.
Lemma oso_value d : 65536 <= lenN d -> osorg_hash d = Ok (hex_fmt 16 (isdb_number d), lenN d).
Proof.
  intros H. unfold osorg_hash. rewrite (proj2 (N.ltb_ge _ _) H).
  change 0 with (8 * N.of_nat 0) at 1. rewrite hash_loop_spec.
  - cbn [bind]. rewrite !sum_take. unfold hex16, isdb_number. reflexivity.
  - assert (E : lenN (takeN 65536 d) = 65536) by (rewrite lenN_takeN; lia). rewrite lenN_length in E. lia.
  - assert (E : lenN (takeN 65536 (dropN (lenN d - 65536) d)) = 65536) by (rewrite lenN_takeN, lenN_dropN; lia). rewrite lenN_length in E. lia.
  - lia.
Qed.
Theorem oso_thm d : 65536 <= lenN d ->
  exists h, osorg_hash d = Ok (h, lenN d) /\ hex_of h (isdb_number d).
Proof.
  intros H. eexists. split; [apply oso_value; exact H|].
  destruct (hex_fmt_spec 16 (isdb_number d)) as (ds & A & B & C & D).
  - change (16 ^ N.of_nat 16) with (2 ^ 64). apply N.mod_lt. discriminate.
  - exists ds. auto.
Qed.

(** an example, worked out without running through 64 KiB *)
Definition one_file : bytes := [x00; x01] ++ repN 65534 x00.
Lemma nth_repN n j : nth j (repN n x00) x00 = x00.
Proof.
  destruct (Nat.lt_ge_cases j (length (repN n x00))) as [H|H]; [|now apply nth_overflow].
  assert (E : forall l : bytes, Forall (fun b => b = x00) l -> nth j l x00 = x00).
  { clear. revert j. intros j l H. revert j. induction H as [|b l E _ IH]; intros [|j]; cbn; auto. }
  apply E. clear. induction n as [|n IH] using N.peano_ind; [constructor|]. rewrite repN_succ. now constructor.
Qed.
Lemma one_words : words_sum one_file = 256.
Proof.
  assert (E0 : word one_file 0 = 256).
  { unfold word, one_file. cbn [seq fold_right Nat.mul Nat.add app nth]. rewrite !nth_repN. reflexivity. }
  assert (E1 : forall i, (i <> 0)%nat -> word one_file i = 0).
  { intros [|i] H; [lia|]. unfold word, one_file. cbn [seq fold_right].
    assert (Z : forall k, (2 <= k)%nat -> nth k ([x00; x01] ++ repN 65534 x00) x00 = x00)
      by (intros k Hk; rewrite app_nth2 by exact Hk; apply nth_repN).
    rewrite !Z by lia. reflexivity. }
  unfold words_sum. assert (E3 : exists n, N.to_nat 8192 = S n) by (exists (N.to_nat 8191); lia).
  destruct E3 as (n & ->). cbn [seq map fold_right]. rewrite E0.
  assert (E2 : forall l, Forall (fun i => i <> 0%nat) l -> fold_right N.add 0 (map (word one_file) l) = 0).
  { clear -E1. induction 1 as [|i l H _ IH]; [reflexivity|]. cbn [map fold_right]. now rewrite E1, IH. }
  rewrite E2; [reflexivity|]. apply Forall_forall. intros i Hi. apply in_seq in Hi. lia.
Qed.
Lemma one_length : lenN one_file = 65536.
Proof. unfold one_file. rewrite lenN_app, lenN_repN. reflexivity. Qed.
Lemma one_hash : osorg_hash one_file = Ok (str "0000000000010200", 65536).
Proof.
  rewrite oso_value by (rewrite one_length; lia). unfold isdb_number. rewrite one_length, N.sub_diag, dropN_0, one_words.
  vm_compute. reflexivity.
Qed.
