(** RecovThms: recovery records, byte by byte. *)
From Verif Require Import Base BaseFacts Crc CrcSpec RecovSpec RecovFacts CrcFacts Srr.

Theorem recovery_fits raw rs ds d : 0 < rs -> d <> [] -> N.of_nat (sector_count d) <= ds ->
  recovery_bytes raw rs ds d = Ok (raw ++ rr_data (N.to_nat rs) (N.to_nat ds) d).
Proof. intros A B C. rewrite recovery_bytes_ok by assumption. now rewrite (proj2 (N.leb_le _ _) C). Qed.
Theorem recovery_small raw rs ds d : 0 < rs -> d <> [] -> ds < N.of_nat (sector_count d) ->
  recovery_bytes raw rs ds d = Err IndexError.
Proof. intros A B C. rewrite recovery_bytes_ok by assumption. now rewrite (proj2 (N.leb_gt _ _) C). Qed.

(** the [k]-th of equally long parts *)
Lemma concat_nth {A} (f : nat -> list A) n m : (forall k, (k < m)%nat -> length (f k) = n) ->
  forall k, (k < m)%nat -> firstn n (skipn (n * k) (concat (map f (seq 0 m)))) = f k.
Proof.
  intros H k Hk.
  assert (G : forall a c, (forall i, (a <= i < a + c)%nat -> length (f i) = n) -> forall i, (i < c)%nat ->
            firstn n (skipn (n * i) (concat (map f (seq a c)))) = f (a + i)%nat).
  { clear. intros a c. revert a. induction c as [|c IH]; intros a H i Hi; [lia|]. cbn [seq map concat].
    destruct i as [|i].
    - rewrite Nat.mul_0_r, Nat.add_0_r. cbn [skipn]. rewrite firstn_app, H by lia. rewrite Nat.sub_diag. cbn [firstn]. rewrite app_nil_r.
      apply firstn_all2. rewrite H; lia.
    - rewrite skipn_app, H by lia. rewrite skipn_all2 by (rewrite H; lia). cbn [app].
      replace (n * S i - n)%nat with (n * i)%nat by lia. rewrite IH; [f_equal; lia| |lia]. intros j Hj. apply H. lia. }
  apply (G O m); [intros; apply H; lia|exact Hk].
Qed.
Lemma concat_len {A} (f : nat -> list A) n m : (forall k, (k < m)%nat -> length (f k) = n) ->
  length (concat (map f (seq 0 m))) = (n * m)%nat.
Proof.
  intros H. assert (G : forall a c, (forall i, (a <= i < a + c)%nat -> length (f i) = n) -> length (concat (map f (seq a c))) = (n * c)%nat).
  { clear. intros a c. revert a. induction c as [|c IH]; intros a H; [cbn; lia|]. cbn [seq map concat]. rewrite app_length, H, IH by (intros; try apply H; lia). lia. }
  apply G. intros; apply H; lia.
Qed.
Lemma sum_len d k : length (sector_sum d k) = 2%nat.
Proof. reflexivity. Qed.

Theorem rr_sums rs ds d k : (k < sector_count d)%nat -> exists c,
  is_crc32 (sector d k) c /\
  sub (2 * N.of_nat k) 2 (rr_data rs ds d) = le 2 ((4294967295 - c) mod 65536).
Proof.
  intros H. exists (crc32 (sector d k)). split; [apply crc32_is|]. unfold sub. rewrite takeN_firstn, dropN_skipn.
  replace (N.to_nat (2 * N.of_nat k)) with (2 * k)%nat by lia. change (N.to_nat 2) with 2%nat.
  assert (E : firstn 2 (skipn (2 * k) (concat (map (sector_sum d) (seq 0 (sector_count d))))) = sector_sum d k)
    by exact (concat_nth (sector_sum d) 2 (sector_count d) (fun k _ => sum_len d k) k H).
  assert (L : length (concat (map (sector_sum d) (seq 0 (sector_count d)))) = (2 * sector_count d)%nat)
    by exact (concat_len (sector_sum d) 2 (sector_count d) (fun k _ => sum_len d k)).
  unfold rr_data. set (S0 := concat _) in *. clearbody S0.
  rewrite skipn_app. rewrite firstn_app. rewrite E. rewrite skipn_length.
  replace (2 - _)%nat with 0%nat by lia. cbn [firstn]. rewrite app_nil_r. reflexivity.
Qed.

Theorem rr_parity rs ds d i j : (i < rs)%nat -> (j < 512)%nat -> (sector_count d <= ds)%nat ->
  fold_right (fun k a => N.lxor (b2n (nth j (sector d k) x00)) a)
    (b2n (nth (2 * ds + 512 * i + j) (rr_data rs ds d) x00))
    (filter (fun k => Nat.eqb (k mod rs) i) (seq 0 (sector_count d))) = 0.
Proof.
  intros Hi Hj Hd.
  assert (L : length (concat (map (sector_sum d) (seq 0 (sector_count d)))) = (2 * sector_count d)%nat)
    by exact (concat_len (sector_sum d) 2 (sector_count d) (fun k _ => sum_len d k)).
  assert (Lp : forall k, (k < rs)%nat -> length (parity_sector rs d k) = 512%nat).
  { intros k _. unfold parity_sector. now rewrite map_length, seq_length. }
  assert (E : nth (2 * ds + 512 * i + j) (rr_data rs ds d) x00 = nth j (parity_sector rs d i) x00).
  { unfold rr_data. set (S0 := concat (map (sector_sum d) _)) in *. clearbody S0.
    rewrite app_nth2 by lia. rewrite app_nth2 by (rewrite repeat_length; lia). rewrite repeat_length.
    replace (_ - _ - _)%nat with (512 * i + j)%nat by lia.
    assert (F : firstn 512 (skipn (512 * i) (concat (map (parity_sector rs d) (seq 0 rs)))) = parity_sector rs d i)
      by exact (concat_nth (parity_sector rs d) 512 rs Lp i Hi).
    rewrite <- F. set (c := concat _). clearbody c.
    assert (X : forall (l : list byte) n, (j < n)%nat -> nth j (firstn n l) x00 = nth j l x00).
    { clear. revert j. intros j l n. revert j l. induction n as [|n IH]; intros j l H; [lia|]. destruct l, j; cbn; auto. apply IH. lia. }
    rewrite X by exact Hj. symmetry.
    assert (Y : forall (l : list byte) n k, nth k (skipn n l) x00 = nth (n + k) l x00).
    { clear. intros l n. revert l. induction n as [|n IH]; intros l k; [reflexivity|]. destruct l; [destruct k; reflexivity|]. cbn. apply IH. }
    apply Y. }
  rewrite E. unfold parity_sector. rewrite nth_map_seq by exact Hj. unfold slice_sectors, xor_bytes.
  set (ks := filter _ _). clearbody ks.
  assert (Z : forall k, nth j (sector d k) x00 = nth (512 * k + j) d x00).
  { intros k. unfold sector. rewrite nth_map_seq by exact Hj. reflexivity. }
  assert (B : forall l : list byte, fold_right (fun b a => N.lxor (b2n b) a) 0 l < 256).
  { induction l as [|b l IH]; cbn [fold_right]; [reflexivity|]. apply (lxor_lt _ _ 8); [apply b2n_lt|exact IH]. }
  rewrite b2n_n2b_small by apply B.
  assert (G : forall v, fold_right (fun k a => N.lxor (b2n (nth j (sector d k) x00)) a) v ks =
     N.lxor (fold_right (fun b a => N.lxor (b2n b) a) 0 (map (fun k => nth (512 * k + j) d x00) ks)) v).
  { intros v. clear -Z. induction ks as [|k ks IH]; cbn [fold_right map]; [now rewrite N.lxor_0_l|]. now rewrite IH, Z, N.lxor_assoc. }
  rewrite G. apply N.lxor_nilpotent.
Qed.
