(** EbmlFacts: lemmas about EBML numbers and lacing. *)
From Verif Require Import Base BaseFacts Ebml EbmlSpec.

(** ** Big endian numbers *)
Lemma be_snoc k n : be (S k) n = be k (n / 256) ++ [n2b n].
Proof. reflexivity. Qed.
Lemma be_cons k : forall n, be (S k) n = n2b (n / 256 ^ N.of_nat k) :: be k n.
Proof.
  induction k as [|k IH]; intros n.
  - unfold be. cbn [le rev app]. replace (n / 256 ^ N.of_nat 0) with n; [reflexivity|]. change (256 ^ N.of_nat 0) with 1. now rewrite N.div_1_r.
  - rewrite be_snoc, IH. cbn [app]. rewrite <- be_snoc. f_equal. f_equal. rewrite N.div_div by (try apply N.pow_nonzero; lia). f_equal.
    rewrite Nat2N.inj_succ, N.pow_succ_r'. lia.
Qed.
Lemma unbe_cons x l : unbe (x :: l) = b2n x * 256 ^ lenN l + unbe l.
Proof.
  unfold unbe. cbn [rev]. assert (G : forall a b, unle (a ++ b) = unle a + 256 ^ lenN a * unle b).
  { induction a as [|y a IH]; intros b; [cbn [app unle lenN]; change (256 ^ 0) with 1; lia|].
    cbn [app unle]. rewrite IH, lenN_cons, N.pow_add_r. change (256 ^ 1) with 256. lia. }
  rewrite G, lenN_rev. cbn [unle]. lia.
Qed.
Lemma be_map k : forall n, be k n = map (fun i => n2b (N.land (N.shiftr n ((N.of_nat k - (N.of_nat i + 1)) * 8)) 0xFF)) (seq 0 k).
Proof.
  assert (B : forall m, n2b (N.land m 0xFF) = n2b m).
  { intros m. apply b2n_inj. rewrite !b2n_n2b. change 0xFF with (N.ones 8). rewrite N.land_ones. change (2 ^ 8) with 256. now rewrite N.mod_mod by lia. }
  induction k as [|k IH]; intros n; [reflexivity|]. rewrite be_cons. cbn [seq map]. f_equal.
  - rewrite B, N.shiftr_div_pow2. do 2 f_equal. change 256 with (2 ^ 8). rewrite <- N.pow_mul_r. f_equal. lia.
  - rewrite IH, <- seq_shift, map_map. apply map_ext. intros i. do 4 f_equal. lia.
Qed.
Lemma unbe_be_mod k n : unbe (be k n) = n mod 256 ^ N.of_nat k.
Proof.
  unfold unbe, be. rewrite rev_involutive, unle_le. f_equal. change 256 with (2 ^ 8). now rewrite <- N.pow_mul_r.
Qed.

(** ** Reading numbers *)
Lemma byte_at_app a x b : byte_at (a ++ x :: b) (lenN a) = Ok (b2n x).
Proof.
  unfold byte_at, unpack. rewrite (sub_app_exact a [x] b) by reflexivity. cbn. rewrite N.mul_0_r, N.add_0_r. reflexivity.
Qed.
Lemma uint_loop_ok l : forall a b s, uint_loop (a ++ l ++ b) (length l) (lenN a) s = Ok (s * 256 ^ lenN l + unbe l).
Proof.
  induction l as [|x l IH]; intros a b s.
  - cbn. f_equal. change (256 ^ 0) with 1. change (unbe []) with 0. lia.
  - cbn [length uint_loop app]. rewrite byte_at_app. cbn [bind].
    replace (lenN a + 1) with (lenN (a ++ [x])) by (rewrite lenN_app; reflexivity).
    replace (a ++ x :: l ++ b) with ((a ++ [x]) ++ l ++ b) by now rewrite <- app_assoc.
    rewrite IH. f_equal. rewrite unbe_cons, lenN_cons, N.shiftl_mul_pow2, N.pow_add_r. change (2 ^ 8) with 256. change (256 ^ 1) with 256. lia.
Qed.
Lemma length_log f : 0 < f < 256 -> get_uint_length f = 8 - N.log2 f.
Proof.
  intros H. assert (E : forallb (fun i => get_uint_length (N.of_nat i) =? 8 - N.log2 (N.of_nat i)) (seq 1 255) = true) by (vm_compute; reflexivity).
  rewrite forallb_forall in E. specialize (E (N.to_nat f)). rewrite N2Nat.id in E. apply N.eqb_eq, E, in_seq. lia.
Qed.
Lemma length_zero : get_uint_length 0 = 0.
Proof. reflexivity. Qed.

Section Vint.
Variables (w : nat) (v : N).
Hypothesis (Hv : vint_ok w v).
Let n := 2 ^ (7 * N.of_nat w) + v.
Let k := (w - 1)%nat.
Let f := n / 256 ^ N.of_nat k.
Lemma vint_split : vint w v = n2b f :: be k n.
Proof. unfold vint. fold n. destruct Hv as [H _]. replace w with (S k) at 1 by (unfold k; lia). apply be_cons. Qed.
Lemma lenN_vint : lenN (vint w v) = N.of_nat w.
Proof. apply lenN_be. Qed.
Lemma pow_split : 2 ^ (7 * N.of_nat w) = 2 ^ (8 - N.of_nat w) * 256 ^ N.of_nat k.
Proof. destruct Hv as [H _]. change 256 with (2 ^ 8). rewrite <- N.pow_mul_r, <- N.pow_add_r. f_equal. unfold k. lia. Qed.
Lemma first_range : 2 ^ (8 - N.of_nat w) <= f < 2 ^ (9 - N.of_nat w).
Proof.
  pose proof (proj2 Hv) as H. pose proof pow_split as E. assert (P : 256 ^ N.of_nat k <> 0) by (apply N.pow_nonzero; lia).
  assert (Q : 2 ^ (9 - N.of_nat w) = 2 * 2 ^ (8 - N.of_nat w)). { rewrite <- N.pow_succ_r'. f_equal. destruct Hv. lia. }
  unfold f, n. split.
  - apply N.div_le_lower_bound; [exact P|]. lia.
  - apply N.div_lt_upper_bound; [exact P|]. rewrite Q. lia.
Qed.
Lemma first_lt : 0 < f < 256.
Proof.
  pose proof first_range as [A B]. destruct Hv as [H _]. assert (2 ^ (8 - N.of_nat w) <> 0) by (apply N.pow_nonzero; lia).
  assert (2 ^ (9 - N.of_nat w) <= 2 ^ 8) by (apply N.pow_le_mono_r; lia). change (2 ^ 8) with 256 in *. lia.
Qed.
Lemma first_length : get_uint_length f = N.of_nat w.
Proof.
  rewrite length_log by exact first_lt. pose proof first_range as [A B]. destruct Hv as [H _].
  assert (L : N.log2 f = 8 - N.of_nat w). { apply N.log2_unique; [lia|]. split; [exact A|]. replace (N.succ (8 - N.of_nat w)) with (9 - N.of_nat w) by lia. exact B. }
  rewrite L. lia.
Qed.
Lemma mask_mod : N.land f (N.shiftr 0xFF (N.of_nat w)) = f mod 2 ^ (8 - N.of_nat w).
Proof.
  rewrite <- N.land_ones. f_equal. destruct Hv as [H _].
  revert H. generalize w. intros m H. do 9 (destruct m as [|m]; [lia || reflexivity|]). lia.
Qed.
Lemma vint_value : f mod 2 ^ (8 - N.of_nat w) * 256 ^ lenN (be k n) + unbe (be k n) = v.
Proof.
  rewrite lenN_be, unbe_be_mod. assert (P : 256 ^ N.of_nat k <> 0) by (apply N.pow_nonzero; lia). assert (Q : 2 ^ (8 - N.of_nat w) <> 0) by (apply N.pow_nonzero; lia).
  assert (E : n mod (256 ^ N.of_nat k * 2 ^ (8 - N.of_nat w)) = v).
  { rewrite (N.mul_comm (256 ^ _)), <- pow_split. unfold n. rewrite N.add_comm, <- (N.mul_1_l (2 ^ (7 * N.of_nat w))) at 1.
    rewrite N.mod_add by (apply N.pow_nonzero; lia). apply N.mod_small. apply Hv. }
  rewrite N.mod_mul_r in E by assumption. fold f in E. lia.
Qed.
Lemma length_be' : length (be k n) = N.to_nat (N.of_nat w - 1).
Proof. unfold be. rewrite rev_length. assert (X := lenN_le k n). rewrite lenN_length in X. unfold k in *. lia. Qed.
Theorem read_vint a b :
  get_ebml_uint (a ++ vint w v ++ b) (lenN a) (N.of_nat w) = Ok v /\
  get_ebml_uint_stream (a ++ vint w v ++ b) (lenN a) = Ok (v, N.of_nat w).
Proof.
  unfold get_ebml_uint, get_ebml_uint_stream. rewrite vint_split. cbn [app].
  pose proof (byte_at_app a (n2b f) (be k n ++ b)) as X. pose proof first_lt as F. rewrite b2n_n2b_small in X by lia.
  rewrite X. cbn [bind]. rewrite first_length, mask_mod.
  assert (Y : forall s, uint_loop (a ++ n2b f :: be k n ++ b) (N.to_nat (N.of_nat w - 1)) (lenN a + 1) s = Ok (s * 256 ^ lenN (be k n) + unbe (be k n))).
  { intros s. rewrite <- length_be'. replace (lenN a + 1) with (lenN (a ++ [n2b f])) by (rewrite lenN_app; reflexivity).
    replace (a ++ n2b f :: be k n ++ b) with ((a ++ [n2b f]) ++ be k n ++ b) by now rewrite <- app_assoc. apply uint_loop_ok. }
  rewrite Y, vint_value. split; reflexivity.
Qed.
Theorem vint_first : exists c r, vint w v = c :: r /\ get_uint_length (b2n c) = N.of_nat w.
Proof. exists (n2b f), (be k n). split; [exact vint_split|]. pose proof first_lt. rewrite b2n_n2b_small by lia. exact first_length. Qed.
End Vint.

(** ** Writing numbers *)
Lemma lor_pow a m : a < 2 ^ m -> N.lor a (2 ^ m) = 2 ^ m + a.
Proof.
  intros H. assert (L : N.land a (2 ^ m) = 0).
  { apply N.bits_inj_0. intros i. rewrite N.land_spec. destruct (N.eq_dec i m) as [->|D].
    - rewrite <- (N.mod_small a (2 ^ m) H), N.mod_pow2_bits_high by lia. reflexivity.
    - rewrite N.pow2_bits_false by congruence. apply andb_false_r. }
  rewrite <- N.lxor_lor, <- N.add_nocarry_lxor by exact L. lia.
Qed.
Lemma make_vint number w : (1 <= w <= 7)%nat -> number < 2 ^ (7 * N.of_nat w) -> (w = 1%nat \/ 2 ^ (7 * (N.of_nat w - 1)) <= number) ->
  make_ebml_uint number = Ok (vint w number).
Proof.
  intros Hw H L. unfold make_ebml_uint.
  assert (F : find_mask number [1; 2; 3; 4; 5; 6; 7] = Ok (N.of_nat w, 2 ^ (7 * N.of_nat w) + number)).
  { assert (T : forall i, (i < w)%nat -> (1 <= i)%nat -> (number <? N.shiftl 1 (N.of_nat i * 8 - N.of_nat i)) = false).
    { intros i Hi Hi'. destruct L as [L|L]; [lia|]. apply N.ltb_ge. rewrite N.shiftl_1_l. transitivity (2 ^ (7 * (N.of_nat w - 1))); [|exact L]. apply N.pow_le_mono_r; lia. }
    assert (U : (number <? N.shiftl 1 (N.of_nat w * 8 - N.of_nat w)) = true).
    { apply N.ltb_lt. rewrite N.shiftl_1_l. replace (N.of_nat w * 8 - N.of_nat w) with (7 * N.of_nat w) by lia. exact H. }
    assert (V : N.lor number (N.shiftl 1 (N.of_nat w * 8 - N.of_nat w)) = 2 ^ (7 * N.of_nat w) + number).
    { rewrite N.shiftl_1_l. replace (N.of_nat w * 8 - N.of_nat w) with (7 * N.of_nat w) by lia. now apply lor_pow. }
    assert (C : w = 1%nat \/ w = 2%nat \/ w = 3%nat \/ w = 4%nat \/ w = 5%nat \/ w = 6%nat \/ w = 7%nat) by lia.
    pose proof (T 1%nat) as T1. pose proof (T 2%nat) as T2. pose proof (T 3%nat) as T3. pose proof (T 4%nat) as T4. pose proof (T 5%nat) as T5. pose proof (T 6%nat) as T6. clear T.
    change (N.of_nat 1) with 1 in T1. change (N.of_nat 2) with 2 in T2. change (N.of_nat 3) with 3 in T3. change (N.of_nat 4) with 4 in T4. change (N.of_nat 5) with 5 in T5. change (N.of_nat 6) with 6 in T6.
    cbn [find_mask].
    destruct C as [->|[->|[->|[->|[->|[->| ->]]]]]]; rewrite ?T1, ?T2, ?T3, ?T4, ?T5, ?T6 by lia; cbn [find_mask];
      cbn [N.of_nat Pos.of_succ_nat Pos.succ] in U, V |- *; rewrite U, V; reflexivity. }
  rewrite F. cbn [bind]. f_equal. unfold vint. rewrite be_map, Nat2N.id. reflexivity.
Qed.
Lemma width_exists number : number < 2 ^ 49 -> exists w, (1 <= w <= 7)%nat /\ number < 2 ^ (7 * N.of_nat w) /\ (w = 1%nat \/ 2 ^ (7 * (N.of_nat w - 1)) <= number).
Proof.
  intros H. set (P := fun i : nat => number <? 2 ^ (7 * N.of_nat i)).
  assert (G : forall k, (k <= 6)%nat -> (exists w, (1 <= w <= k)%nat /\ P w = true /\ forall j, (1 <= j < w)%nat -> P j = false) \/ forall j, (1 <= j <= k)%nat -> P j = false).
  { induction k as [|k IH]; intros Hk; [right; lia|]. destruct IH as [(w & A & B & C)|N0]; [lia|left; exists w; repeat split; try lia; assumption|].
    destruct (P (S k)) eqn:E; [left; exists (S k); repeat split; try lia; [exact E|intros j Hj; apply N0; lia]|].
    right. intros j Hj. destruct (Nat.eq_dec j (S k)) as [->|]; [exact E|apply N0; lia]. }
  assert (F : exists w, (1 <= w <= 7)%nat /\ P w = true /\ forall j, (1 <= j < w)%nat -> P j = false).
  { destruct (G 6%nat) as [(w & A & B & C)|N0]; [lia|exists w; repeat split; try lia; assumption|].
    exists 7%nat. repeat split; try lia; [apply N.ltb_lt; exact H|intros j Hj; apply N0; lia]. }
  destruct F as (w & A & B & C). exists w. split; [exact A|]. split; [now apply N.ltb_lt|].
  destruct (Nat.eq_dec w 1) as [->|D]; [now left|right]. specialize (C (w - 1)%nat ltac:(lia)). apply N.ltb_ge in C.
  replace (N.of_nat w - 1) with (N.of_nat (w - 1)) by lia. exact C.
Qed.
Theorem make_thm number : number < 2 ^ 49 -> exists w,
  make_ebml_uint number = Ok (vint w number) /\ vint_ok w number /\ forall w', vint_ok w' number -> (w <= w')%nat.
Proof.
  intros H. destruct (width_exists number H) as (w & A & B & C). exists w. split; [now apply make_vint|]. split; [split; [lia|exact B]|].
  intros w' [A' B']. destruct C as [->|C]; [lia|]. destruct (Nat.le_gt_cases w w') as [|L]; [assumption|].
  assert (2 ^ (7 * N.of_nat w') <= 2 ^ (7 * (N.of_nat w - 1))) by (apply N.pow_le_mono_r; lia). lia.
Qed.
Theorem make_large number : 2 ^ 49 <= number -> make_ebml_uint number = Err UnboundLocal.
Proof.
  intros H. unfold make_ebml_uint. cbn [find_mask].
  assert (T : forall i, i <= 7 -> (number <? N.shiftl 1 (i * 8 - i)) = false).
  { intros i Hi. apply N.ltb_ge. rewrite N.shiftl_1_l. transitivity (2 ^ 49); [|exact H]. apply N.pow_le_mono_r; lia. }
  rewrite !T by lia. reflexivity.
Qed.
Theorem read_make number b a c : make_ebml_uint number = Ok b ->
  get_ebml_uint (a ++ b ++ c) (lenN a) (lenN b) = Ok number /\
  get_ebml_uint_stream (a ++ b ++ c) (lenN a) = Ok (number, lenN b) /\
  (exists x r, b = x :: r /\ get_uint_length (b2n x) = lenN b).
Proof.
  intros E. destruct (N.lt_ge_cases number (2 ^ 49)) as [L|L]; [|rewrite make_large in E by exact L; discriminate].
  destruct (make_thm number L) as (w & M & V & _). rewrite M in E. injection E as <-. rewrite lenN_vint.
  destruct (read_vint w number V a c) as [R1 R2]. split; [exact R1|]. split; [exact R2|]. now apply vint_first.
Qed.

(** ** Lacing *)
Lemma sumZ_app a b : sumZ (a ++ b) = (sumZ a + sumZ b)%Z.
Proof. induction a as [|x a IH]; [reflexivity|]. cbn [app sumZ fold_right]. fold (sumZ (a ++ b)) (sumZ a). lia. Qed.
Lemma xiph_read m : forall fuel a r rest s, (m < fuel)%nat -> r < 255 ->
  xiph_size fuel (a ++ repeat xff m ++ n2b r :: rest) (lenN a) s = Ok (s + 255 * N.of_nat m + r, lenN a + N.of_nat m + 1).
Proof.
  induction m as [|m IH]; intros fuel a r rest s Hf Hr; destruct fuel as [|fuel]; try lia; cbn [xiph_size repeat app].
  - rewrite byte_at_app. cbn [bind]. rewrite b2n_n2b_small by lia. replace (r =? 0xFF) with false by lia. f_equal. f_equal; lia.
  - rewrite byte_at_app. cbn [bind]. change (b2n xff =? 0xFF) with true. cbv iota.
    replace (lenN a + 1) with (lenN (a ++ [xff])) by (rewrite lenN_app; reflexivity).
    replace (a ++ xff :: repeat xff m ++ n2b r :: rest) with ((a ++ [xff]) ++ repeat xff m ++ n2b r :: rest) by now rewrite <- app_assoc.
    rewrite IH by lia. rewrite lenN_app. change (lenN [xff]) with 1. change (b2n xff) with 255. f_equal. f_equal; lia.
Qed.
Lemma lenN_xiph n : lenN (xiph_code n) = n / 255 + 1.
Proof. unfold xiph_code. rewrite lenN_app, lenN_repN. reflexivity. Qed.
Lemma xiph_one a n rest : exists m, (m < S (length (a ++ xiph_code n ++ rest)))%nat /\
  xiph_size (S (length (a ++ xiph_code n ++ rest))) (a ++ xiph_code n ++ rest) (lenN a) 0 = Ok (n, lenN a + lenN (xiph_code n)).
Proof.
  exists (N.to_nat (n / 255)). assert (L : (N.to_nat (n / 255) < S (length (a ++ xiph_code n ++ rest)))%nat).
  { pose proof (lenN_xiph n) as X. rewrite lenN_length in X. rewrite !app_length. lia. }
  split; [exact L|]. rewrite lenN_xiph. remember (S (length (a ++ xiph_code n ++ rest))) as fuel. unfold xiph_code, repN. rewrite <- app_assoc. cbn [app].
  rewrite xiph_read; [|exact L|apply N.mod_lt; lia]. f_equal. f_equal; lia.
Qed.
Lemma total_app a b : total (a ++ b) = total a + total b.
Proof. induction a as [|x a IH]; [reflexivity|]. cbn [app total fold_right]. fold (total (a ++ b)) (total a). lia. Qed.
Lemma sumZ_total l : sumZ (map Z.of_N l) = Z.of_N (total l).
Proof. induction l as [|x l IH]; [reflexivity|]. cbn [map sumZ total fold_right]. fold (sumZ (map Z.of_N l)) (total l). lia. Qed.

Lemma xiph_loop l : forall a rest done c dl n consumed, lenN done + lenN l + 1 = c ->
  (dl - Z.of_N consumed - Z.of_N (lenN (concat (map xiph_code l))) = Z.of_N (total done + total l + n))%Z ->
  lace_loop (S (length l)) LACE_XIPH c dl (a ++ concat (map xiph_code l) ++ rest) (lenN a) (lenN done) (map Z.of_N done) consumed
  = Ok (map Z.of_N (done ++ l ++ [n]), consumed + lenN (concat (map xiph_code l))).
Proof.
  induction l as [|x l IH]; intros a rest done c dl n consumed Hc Hd.
  - cbn [map concat app length lace_loop]. change (LACE_XIPH =? LACE_NONE) with false. change (LACE_XIPH =? LACE_FIXED) with false. change (LACE_XIPH =? LACE_XIPH) with true. cbv iota.
    cbn [lenN] in Hc. replace (lenN done + 1 <? c) with false by lia. cbn [map concat lenN] in *. change (lenN (@nil byte)) with 0 in *.
    rewrite N.add_0_r, map_app. cbn [map]. rewrite sumZ_total. cbn [total fold_right] in Hd. do 3 f_equal. f_equal. lia.
  - cbn [length]. remember (S (length l)) as m eqn:Em. cbn [lace_loop]. change (LACE_XIPH =? LACE_NONE) with false. change (LACE_XIPH =? LACE_FIXED) with false. change (LACE_XIPH =? LACE_XIPH) with true. cbv iota.
    rewrite lenN_cons in Hc. replace (lenN done + 1 <? c) with true by lia. cbn [map concat]. rewrite <- app_assoc.
    destruct (xiph_one a x (concat (map xiph_code l) ++ rest)) as (k & _ & X). rewrite X. cbn [bind fst snd].
    replace (lenN a + lenN (xiph_code x) - lenN a) with (lenN (xiph_code x)) by lia.
    pose proof (IH (a ++ xiph_code x) rest (done ++ [x]) c dl n (consumed + lenN (xiph_code x))) as G. rewrite !lenN_app in G. change (lenN [x]) with 1 in G. rewrite map_app in G. cbn [map] in G. rewrite <- !app_assoc in G. cbn [app] in G.
    cbn [map concat] in Hd. rewrite lenN_app in Hd |- *. cbn [total fold_right] in Hd. fold (total l) in Hd.
    subst m. rewrite G; [rewrite N.add_assoc; reflexivity|lia|].
    rewrite total_app. cbn [total fold_right]. lia.
Qed.
Lemma ebml_loop p l b : ebml_code p l b -> forall a rest done c dl n consumed, lenN done + 1 + lenN l + 1 = c ->
  (dl - Z.of_N consumed - Z.of_N (lenN b) = Z.of_N (total done + p + total l + n))%Z ->
  lace_loop (S (length l)) LACE_EBML c dl (a ++ b ++ rest) (lenN a) (lenN done + 1) (map Z.of_N (done ++ [p])) consumed
  = Ok (map Z.of_N (done ++ p :: l ++ [n]), consumed + lenN b).
Proof.
  induction 1 as [p|p x w v l b Hx Hv Hb IH]; intros a rest done c dl n consumed Hc Hd.
  - cbn [app length lace_loop]. change (LACE_EBML =? LACE_NONE) with false. change (LACE_EBML =? LACE_FIXED) with false. change (LACE_EBML =? LACE_XIPH) with false. cbv iota.
    replace (lenN done + 1 =? 0) with false by lia. cbn [lenN] in Hc. replace (lenN done + 1 + 1 <? c) with false by lia. change (lenN (@nil byte)) with 0 in *.
    rewrite N.add_0_r, !map_app, <- app_assoc. cbn [map app]. rewrite sumZ_app, sumZ_total. cbn [total fold_right sumZ] in *. do 3 f_equal. do 2 f_equal. lia.
  - cbn [length]. remember (S (length l)) as m eqn:Em. cbn [lace_loop]. change (LACE_EBML =? LACE_NONE) with false. change (LACE_EBML =? LACE_FIXED) with false. change (LACE_EBML =? LACE_XIPH) with false. cbv iota.
    replace (lenN done + 1 =? 0) with false by lia. rewrite lenN_cons in Hc. replace (lenN done + 1 + 1 <? c) with true by lia. rewrite <- app_assoc.
    destruct (read_vint w v Hv a (b ++ rest)) as [_ R]. rewrite R. cbn [bind]. pose proof (proj1 Hv) as Hw. replace (N.of_nat w =? 0) with false by lia.
    rewrite lenN_app, lenN_vint in Hd |- *. cbn [total fold_right] in Hd. fold (total l) in Hd.
    pose proof (IH (a ++ vint w v) rest (done ++ [p]) c dl n (consumed + N.of_nat w)) as G. rewrite !lenN_app, lenN_vint, <- !app_assoc in G. change (lenN [p]) with 1 in G. cbn [app] in G.
    assert (E : (last (map Z.of_N (done ++ [p])) 0 + (Z.of_N v - (2 ^ (Z.of_N (N.of_nat w) * 8 - (Z.of_N (N.of_nat w) + 1)) - 1)) = Z.of_N x)%Z).
    { rewrite map_app. cbn [map]. rewrite last_last. replace (Z.of_N (N.of_nat w) * 8 - (Z.of_N (N.of_nat w) + 1))%Z with (7 * Z.of_nat w - 1)%Z by lia. lia. }
    rewrite E. replace (map Z.of_N (done ++ [p]) ++ [Z.of_N x]) with (map Z.of_N (done ++ [p; x])) by (rewrite !map_app, <- app_assoc; reflexivity).
    subst m. rewrite G; [rewrite N.add_assoc; reflexivity|lia|]. rewrite total_app. cbn [total fold_right]. lia.
Qed.
Lemma fixed_loop c n st : 2 <= c -> forall m pos i done consumed, lace_loop m LACE_FIXED c (Z.of_N (1 + c * n)) st pos i done consumed = Ok (done ++ map Z.of_N (repeat n m), consumed).
Proof.
  intros Hc. assert (E : (Z.of_N (1 + c * n) / Z.of_N c = Z.of_N n)%Z). { symmetry. apply (Z.div_unique _ _ _ 1%Z); lia. }
  induction m as [|m IH]; intros pos i done consumed; cbn [lace_loop repeat map]; [now rewrite app_nil_r|].
  change (LACE_FIXED =? LACE_NONE) with false. change (LACE_FIXED =? LACE_FIXED) with true. cbv iota. rewrite E, IH, <- app_assoc, N.add_0_r. reflexivity.
Qed.
Lemma total_repeat n m : total (repeat n m) = N.of_nat m * n.
Proof. induction m as [|m IH]; [reflexivity|]. cbn [repeat total fold_right]. fold (total (repeat n m)). rewrite IH. lia. Qed.
Theorem lengths_thm t frames h a rest : laced t frames h -> t = 0 \/ t = 2 \/ 2 <= lenN frames ->
  block_frame_lengths t (Z.of_N (lenN h + total frames)) (a ++ h ++ rest) (lenN a) = Ok (map Z.of_N frames, lenN h).
Proof.
  intros L Ht. unfold block_frame_lengths. destruct L as [n|n c Hc|l n Hl|n|p w l n b Hp Hb Hl].
  - cbn. change (0 + (n + 0)) with (n + 0). rewrite N.add_0_r. reflexivity.
  - change (4 =? LACE_NONE) with false. cbv iota. cbn [app]. rewrite byte_at_app. cbn [bind]. rewrite b2n_n2b_small by lia. rewrite lenN_repN in Ht.
    unfold repN. rewrite total_repeat. change (lenN [n2b (c - 1)]) with 1. replace (c - 1 + 1) with c by lia. rewrite N2Nat.id. change 4 with LACE_FIXED. rewrite fixed_loop by lia. reflexivity.
  - change (2 =? LACE_NONE) with false. cbv iota. cbn [app]. rewrite byte_at_app. cbn [bind]. rewrite b2n_n2b_small by lia.
    replace (N.to_nat (lenN l + 1)) with (S (length l)) by (rewrite lenN_length; lia).
    pose proof (xiph_loop l (a ++ [n2b (lenN l)]) rest [] (lenN l + 1) (Z.of_N (lenN (n2b (lenN l) :: concat (map xiph_code l)) + total (l ++ [n]))) n 1) as G.
    rewrite <- !app_assoc in G. cbn [app] in G. rewrite lenN_app in G. change (lenN [n2b (lenN l)]) with 1 in G.
    change 2 with LACE_XIPH. change (@lenN N []) with 0 in G. cbn [map app] in G. rewrite G; [rewrite lenN_cons; reflexivity|lia|]. rewrite lenN_cons, total_app. cbn [total fold_right]. fold (total l). lia.
  - cbn in Ht. lia.
  - change (6 =? LACE_NONE) with false. cbv iota. cbn [app]. rewrite byte_at_app. cbn [bind]. rewrite b2n_n2b_small by lia.
    replace (N.to_nat (1 + lenN l + 1)) with (S (S (length l))) by (rewrite lenN_length; lia).
    remember (S (length l)) as m eqn:Em. change 6 with LACE_EBML. cbn [lace_loop]. change (LACE_EBML =? LACE_NONE) with false. change (LACE_EBML =? LACE_FIXED) with false. change (LACE_EBML =? LACE_XIPH) with false. cbv iota. change (0 =? 0) with true. cbv iota.
    destruct (read_vint w p Hp (a ++ [n2b (1 + lenN l)]) (b ++ rest)) as [_ R]. rewrite <- !app_assoc in R. cbn [app] in R. rewrite lenN_app in R. change (lenN [n2b (1 + lenN l)]) with 1 in R.
    rewrite <- app_assoc. rewrite R. cbn [bind fst snd app].
    pose proof (ebml_loop p l b Hb (a ++ n2b (1 + lenN l) :: vint w p) rest [] (1 + lenN l + 1) (Z.of_N (lenN (n2b (1 + lenN l) :: vint w p ++ b) + total (p :: l ++ [n]))) n (1 + N.of_nat w)) as G.
    rewrite <- !app_assoc in G. cbn [app] in G. rewrite !lenN_app, !lenN_cons, !lenN_app, !lenN_vint in G. rewrite !lenN_cons, !lenN_app, !lenN_vint. change (@lenN N []) with 0 in G.
    replace (N.max 1 (N.of_nat w)) with (N.of_nat w) by (pose proof (proj1 Hp); lia). replace (lenN a + 1 + N.of_nat w) with (lenN a + (1 + N.of_nat w)) by lia. subst m. change (@total []) with 0 in G. cbn [map app] in G. rewrite G.
    + f_equal. f_equal. lia.
    + lia.
    + cbn [total fold_right]. fold (total (l ++ [n])) (total l). rewrite total_app. cbn [total fold_right]. lia.
Qed.
(** the sizes add up whatever the bytes *)
Lemma sum_loop lace c dl st : lace = LACE_XIPH \/ (lace = LACE_EBML /\ 2 <= c) -> forall m pos i sizes consumed fs k, N.of_nat m + i = c -> (0 < m)%nat ->
  lace_loop m lace c dl st pos i sizes consumed = Ok (fs, k) -> (sumZ fs = dl - Z.of_N k)%Z.
Proof.
  intros Hl. induction m as [|m IH]; intros pos i sizes consumed fs k Hi Hm E; [lia|]. cbn [lace_loop] in E.
  assert (Fin : i + 1 <? c = false -> lace_loop m lace c dl st (pos + 0) (i + 1) (sizes ++ [(dl - Z.of_N consumed - sumZ sizes)%Z]) (consumed + 0) = Ok (fs, k) -> (sumZ fs = dl - Z.of_N k)%Z).
  { intros B X. assert (m = 0)%nat by lia. subst m. cbn [lace_loop] in X. injection X as <- <-. rewrite sumZ_app. cbn [sumZ fold_right]. lia. }
  destruct Hl as [->|[-> Hc]].
  - change (LACE_XIPH =? LACE_NONE) with false in E. change (LACE_XIPH =? LACE_FIXED) with false in E. change (LACE_XIPH =? LACE_XIPH) with true in E. cbv iota in E.
    destruct (i + 1 <? c) eqn:B; [|exact (Fin eq_refl E)]. destruct (xiph_size _ st pos 0) as [r|]; [|discriminate]. cbn [bind] in E. apply IH in E; [exact E|lia|lia].
  - change (LACE_EBML =? LACE_NONE) with false in E. change (LACE_EBML =? LACE_FIXED) with false in E. change (LACE_EBML =? LACE_XIPH) with false in E. cbv iota in E.
    destruct (N.eqb_spec i 0) as [->|].
    + destruct (get_ebml_uint_stream st pos) as [r|]; [|discriminate]. cbn [bind] in E. apply IH in E; [exact E|lia|lia].
    + destruct (i + 1 <? c) eqn:B; [|exact (Fin eq_refl E)]. destruct (get_ebml_uint_stream st pos) as [[len bc]|]; [|discriminate]. cbn [bind] in E.
      destruct (bc =? 0); [discriminate|]. apply IH in E; [exact E|lia|lia].
Qed.
Theorem sum_thm lace dl st pos fs k : lace = 0 \/ lace = 2 \/ (lace = 6 /\ (2 <= length fs)%nat) ->
  block_frame_lengths lace dl st pos = Ok (fs, k) -> (sumZ fs = dl - Z.of_N k)%Z.
Proof.
  unfold block_frame_lengths. intros H E. destruct H as [->|H].
  - cbn in E. injection E as <- <-. cbn. lia.
  - replace (lace =? LACE_NONE) with false in E by (unfold LACE_NONE; lia). destruct (byte_at st pos) as [b|]; [|discriminate]. cbn [bind] in E.
    apply sum_loop in E; [exact E| |lia|lia]. destruct H as [->|[-> H]]; [now left|right]. split; [reflexivity|].
    assert (G : forall m pos i sizes consumed fs k, lace_loop m 6 (b + 1) dl st pos i sizes consumed = Ok (fs, k) -> length fs = (m + length sizes)%nat).
    { induction m as [|m IH]; intros p i sizes consumed fs' k' X; cbn [lace_loop] in X; [injection X as <- <-; reflexivity|].
      change (6 =? LACE_NONE) with false in X. change (6 =? LACE_FIXED) with false in X. change (6 =? LACE_XIPH) with false in X. cbv iota in X.
      assert (Y : exists q s c', lace_loop m 6 (b + 1) dl st q (i + 1) (sizes ++ [s]) c' = Ok (fs', k')).
      { destruct (i =? 0); [destruct (get_ebml_uint_stream st p) as [r|]; [|discriminate]; cbn [bind] in X; eauto|].
        destruct (i + 1 <? b + 1); [|eauto]. destruct (get_ebml_uint_stream st p) as [[len bc]|]; [|discriminate]. cbn [bind] in X. destruct (bc =? 0); [discriminate|eauto]. }
      destruct Y as (q & s & c' & Y). apply IH in Y. rewrite app_length in Y. cbn [length] in Y. lia. }
    apply G in E. cbn [length] in E. lia.
Qed.
