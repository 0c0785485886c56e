(** BitflipFacts: the proofs about the search for a wrong bit or byte. *)
From Verif Require Import Base BaseFacts Crc CrcSpec Combine RecovFacts EditFacts SrrFacts CrcFacts BitflipCrcFacts Bitflip BitflipSpec.

(** ** Parts of the data *)
Lemma part_len a b (d : bytes) : a <= b -> b <= lenN d -> lenN (part a b d) = b - a.
Proof. intros. unfold part. rewrite lenN_takeN, lenN_dropN. lia. Qed.
Lemma part_app a b c (d : bytes) : a <= b -> b <= c -> part a b d ++ part b c d = part a c d.
Proof.
  intros. unfold part. replace (c - a) with ((b - a) + (c - b)) by lia. rewrite takeN_add, dropN_dropN.
  do 3 f_equal. lia.
Qed.
Lemma part_drop a b (d : bytes) : a <= b -> part a b d ++ dropN b d = dropN a d.
Proof.
  intros. unfold part. rewrite <- (takeN_dropN (b - a) (dropN a d)) at 2. rewrite dropN_dropN. do 2 f_equal. lia.
Qed.
Lemma part_0 b (d : bytes) : part 0 b d = takeN b d.
Proof. unfold part. now rewrite dropN_0, N.sub_0_r. Qed.
Lemma comb_ok a b n : n = lenN b -> comb (crc32 a) (crc32 b) n = Ok (crc32 (a ++ b)).
Proof.
  intros ->. unfold comb. rewrite combine_ok. cbn [bind]. f_equal. unfold MASK32. change 0xFFFFFFFF with (N.ones 32).
  rewrite N.land_ones. apply N.mod_small. apply crc32_lt.
Qed.
Lemma assert_ok e b : b = true -> assert_b e b = Ok tt.
Proof. intros ->. unfold assert_b. now rewrite Bool.andb_false_r. Qed.

(** ** The table *)
Lemma range_in skip stop : 0 < skip -> forall fuel start, stop - start <= N.of_nat fuel ->
  forall x, In x (py_range fuel start stop skip) <-> exists k, x = start + k * skip /\ x < stop.
Proof.
  intros Hs fuel. induction fuel as [|fuel IH]; intros start Hf x; cbn [py_range].
  - split; [intros []|]. intros (k & -> & Hk). lia.
  - destruct (N.ltb_spec start stop) as [H|H].
    + cbn [In]. rewrite IH by lia. split.
      * intros [<-|(k & -> & Hk)]; [exists 0; lia|exists (k + 1); lia].
      * intros (k & -> & Hk). destruct (N.eq_dec k 0) as [->|Hz]; [left; lia|right]. exists (k - 1).
        replace k with (k - 1 + 1) in * by lia. split; [|exact Hk]. replace (k - 1 + 1 - 1) with (k - 1) by lia. lia.
    + split; [intros []|]. intros (k & -> & Hk). lia.
Qed.
Definition tsound (d : bytes) (t : table) : Prop :=
  Forall (fun e : (N * N) * (N * N) => snd e = (crc32 (part (fst (fst e)) (snd (fst e)) d), snd (fst e) - fst (fst e))) t.
Lemma tget_in d t k : tsound d t -> In k (map fst t) -> tget k t = Ok (crc32 (part (fst k) (snd k) d), snd k - fst k).
Proof.
  intros Hs Hi. induction Hs as [|[j v] t Hv Hs IH]; [destruct Hi|]. cbn [tget]. cbn [fst snd] in Hv.
  destruct ((fst j =? fst k) && (snd j =? snd k)) eqn:E.
  - apply andb_prop in E. destruct E as [E1 E2]. apply N.eqb_eq in E1, E2. now rewrite Hv, E1, E2.
  - destruct Hi as [Hi|Hi]; [|auto]. cbn [fst] in Hi. subst j. rewrite !N.eqb_refl in E. discriminate E.
Qed.
Lemma precalc_spec d rs re skip l : forall t, tsound d t ->
  tsound d (precalc_loop d rs re skip l t) /\
  forall k, In k (map fst (precalc_loop d rs re skip l t)) <->
    k = (rs, re) \/ In k (map fst t) \/ exists x, In x l /\ (k = (rs, x) \/ k = (N.min (x + skip) re, re)).
Proof.
  induction l as [|y l IH]; intros t Ht; cbn [precalc_loop].
  - split.
    + constructor; [reflexivity|exact Ht].
    + intros k. cbn [map In fst]. split; [intros [<-|H]; auto|intros [->|[H|(x & [] & _)]]; auto].
  - match goal with |- tsound _ (precalc_loop _ _ _ _ _ ?u) /\ _ => destruct (IH u) as (H1 & H2) end.
    { constructor; [reflexivity|]. constructor; [reflexivity|exact Ht]. }
    split; [exact H1|]. intros k. rewrite H2. cbn [map In fst]. split.
    + intros [H|[[H|[H|H]]|(x & Hx & H)]]; [auto| | |auto|].
      * right; right. exists y. auto.
      * right; right. exists y. auto.
      * right; right. exists x. auto.
    + intros [H|[H|(x & [<-|Hx] & H)]]; [auto|auto| |].
      * destruct H as [H|H]; auto.
      * right; right. exists x. auto.
Qed.
Section Main.
  Variables (d : bytes) (rs re skip : N).
  Hypotheses (Hr : rs <= re) (He : re <= lenN d) (Hs : 0 < skip).
  Lemma table_ok : exists t, precalculate d rs re skip = Ok t /\ tsound d t /\ In (rs, re) (map fst t) /\
    forall k, rs + k * skip <= re -> In (rs, rs + k * skip) (map fst t) /\ In (N.min (rs + k * skip + skip) re, re) (map fst t).
  Proof.
    unfold precalculate, range_by. destruct (N.eqb_spec skip 0) as [Hz|_]; [lia|]. cbn [bind].
    eexists. split; [reflexivity|]. match goal with |- tsound _ (precalc_loop _ _ _ _ ?l _) /\ _ => set (L := l) end.
    destruct (precalc_spec d rs re skip L [] (Forall_nil _)) as (H1 & H2). split; [exact H1|]. split; [apply H2; auto|].
    intros k Hk. assert (Hin : In (rs + k * skip) L) by (apply range_in; [exact Hs|lia|exists k; lia]).
    split; apply H2; right; right; exists (rs + k * skip); auto.
  Qed.
  Variable t : table.
  Hypotheses (Ht : tsound d t) (Hw : In (rs, re) (map fst t))
    (Hk : forall k, rs + k * skip <= re -> In (rs, rs + k * skip) (map fst t) /\ In (N.min (rs + k * skip + skip) re, re) (map fst t)).
  Lemma validate_ok l : (forall x, In x l -> exists k, x = rs + k * skip /\ x < re + skip) ->
    validate_loop rs re (crc32 (part rs re d)) t l = Ok tt.
  Proof.
    induction l as [|x l IH]; intros Hl; cbn [validate_loop]; [reflexivity|].
    destruct (Hl x (or_introl eq_refl)) as (k & Ex & Hx).
    assert (A : In (rs, N.min x re) (map fst t)).
    { destruct (N.le_gt_cases x re) as [Hle|Hgt].
      - rewrite N.min_l by exact Hle. subst x. now apply Hk.
      - rewrite N.min_r by lia. exact Hw. }
    assert (B : In (N.min x re, re) (map fst t)).
    { destruct (N.eq_dec k 0) as [Hz|Hz]; [subst k; rewrite Ex, N.mul_0_l, N.add_0_r, N.min_l by exact Hr; exact Hw|].
      destruct (Hk (k - 1)) as [_ H]; [nia|]. replace x with (rs + (k - 1) * skip + skip) by nia. exact H. }
    rewrite (tget_in d t _ Ht A). cbn [bind]. rewrite (tget_in d t _ Ht B). cbn [bind fst snd].
    rewrite comb_ok by (rewrite part_len by lia; reflexivity). cbn [bind]. rewrite part_app by lia.
    rewrite assert_ok by apply N.eqb_refl. cbn [bind]. destruct (N.min x re =? re); [reflexivity|].
    apply IH. intros y Hy. apply Hl. now right.
  Qed.
  Lemma validate_table_ok : validate_table d rs re skip t = Ok tt.
  Proof.
    unfold validate_table, range_by. destruct (N.eqb_spec skip 0) as [Hz|_]; [lia|]. cbn [bind].
    apply validate_ok. intros x Hx. apply range_in in Hx; [exact Hx|exact Hs|lia].
  Qed.

  (** ** The search *)
  Variables (asserts : bool) (m : mode) (expected : N).
  Definition good (c : N) (s : state) : Prop :=
    let p := rs + skip * (c / skip) in let q := N.min (p + skip) re in
    s = mkSt p q (crc32 (part 0 p d)) p (crc32 (dropN q d)) (lenN d - q).
  Lemma new_part_ok c : c < re - rs -> c mod skip = 0 -> exists s, new_part asserts d rs re skip t c = Ok s /\ good c s.
  Proof.
    intros Hc Hm. assert (Ec : c = c / skip * skip) by (pose proof (N.div_mod c skip ltac:(lia)); nia).
    destruct (Hk (c / skip)) as (A & B); [lia|]. rewrite <- Ec in A, B.
    unfold new_part. rewrite (tget_in d t _ Ht A). cbn [bind fst snd].
    rewrite comb_ok by (rewrite part_len by lia; reflexivity). cbn [bind]. rewrite part_app by lia.
    rewrite assert_ok by apply N.eqb_refl. cbn [bind]. rewrite (tget_in d t _ Ht B). cbn [bind fst snd].
    rewrite comb_ok by reflexivity. cbn [bind]. rewrite part_drop by lia. rewrite assert_ok by apply N.eqb_refl. cbn [bind].
    eexists. split; [reflexivity|]. unfold good. cbv zeta. rewrite N.mul_comm, <- Ec. rewrite !part_len, !lenN_dropN by lia.
    f_equal; lia.
  Qed.
  Definition put (p v : N) : bytes := takeN p d ++ n2b v :: dropN (p + 1) d.
  Lemma try_ok p l : p < lenN d ->
    exists r, try_values expected (crc32 (takeN p d)) (crc32 (dropN (p + 1) d)) (lenN d - p - 1) l = Ok r /\
    match r with
    | Some v => In v l /\ crc32 (put p v) = expected
    | None => forall v, In v l -> crc32 (put p v) <> expected
    end.
  Proof.
    intros Hp. induction l as [|v l IH]; cbn [try_values]; [exists None; split; [reflexivity|intros v []]|].
    assert (E1 : zcrc32 [n2b v] (crc32 (takeN p d)) = crc32 (takeN p d ++ [n2b v])) by (unfold crc32; now rewrite <- zcrc32_app).
    rewrite E1, comb_ok by (rewrite lenN_dropN; lia). cbn [bind]. rewrite <- app_assoc. cbn [app]. fold (put p v).
    destruct (N.eqb_spec (crc32 (put p v)) expected) as [E|E].
    - exists (Some v). split; [reflexivity|]. split; [now left|exact E].
    - destruct IH as (r & Er & H). exists r. split; [exact Er|]. destruct r as [w|].
      + destruct H as (H1 & H2). split; [now right|exact H2].
      + intros w [<-|Hw']; [exact E|now apply H].
  Qed.
  Lemma search_ok n : forall cur s, N.of_nat n = re - cur -> rs <= cur ->
    (cur < re -> (cur - rs) mod skip <> 0 -> good (cur - rs) s) ->
    exists r, search asserts m expected d rs re skip t n cur (cur - rs) s = Ok r /\
    match r with
    | Some (p, v) => cur <= p < re /\ In v (tries m (nth_byte p d)) /\ crc32 (put p v) = expected /\
        (forall q w, cur <= q < p -> In w (tries m (nth_byte q d)) -> crc32 (put q w) <> expected)
    | None => forall q w, cur <= q < re -> In w (tries m (nth_byte q d)) -> crc32 (put q w) <> expected
    end.
  Proof.
    induction n as [|n IH]; intros cur s Hn Hc Hg; cbn [search].
    - exists None. split; [reflexivity|]. intros q w Hq. lia.
    - assert (Hcur : cur < re) by lia.
      assert (S : exists s', (if (cur - rs) mod skip =? 0 then new_part asserts d rs re skip t (cur - rs) else Ok s) = Ok s' /\ good (cur - rs) s').
      { destruct (N.eqb_spec ((cur - rs) mod skip) 0) as [Hz|Hz]; [apply new_part_ok; [lia|exact Hz]|exists s; auto]. }
      destruct S as (s' & Es & Hgs). rewrite Es. cbn [bind]. pose proof Hgs as Hgs'. unfold good in Hgs'. cbv zeta in Hgs'.
      pose proof (N.div_mod (cur - rs) skip ltac:(lia)) as Hdm. pose proof (N.mod_lt (cur - rs) skip ltac:(lia)) as Hml.
      remember (rs + skip * ((cur - rs) / skip)) as p eqn:Ep. remember (N.min (p + skip) re) as q eqn:Eq.
      assert (Hpc : p <= cur) by lia. assert (Hcq : cur < q) by lia. assert (Hqe : q <= re) by lia.
      rewrite Hgs'. cbn [s_start s_end s_before s_blen s_after s_alen].
      rewrite comb_ok by (rewrite part_len by lia; reflexivity). cbn [bind]. rewrite part_app by lia.
      rewrite assert_ok by (rewrite part_len by lia; apply N.eqb_eq; lia). cbn [bind].
      rewrite assert_ok by apply N.eqb_refl. cbn [bind].
      rewrite assert_ok by (rewrite part_len by lia; apply N.eqb_eq; lia). cbn [bind].
      rewrite comb_ok by (rewrite lenN_dropN; reflexivity). cbn [bind]. rewrite part_drop by lia.
      rewrite assert_ok by apply N.eqb_refl. cbn [bind]. rewrite part_0.
      replace (q - cur - 1 + (lenN d - q)) with (lenN d - cur - 1) by lia.
      destruct (try_ok cur (tries m (nth_byte cur d)) ltac:(lia)) as (r & Er & Hr'). rewrite Er. cbn [bind].
      destruct r as [v|].
      + destruct Hr' as (H1 & H2). exists (Some (cur, v)). split; [reflexivity|]. split; [lia|]. split; [exact H1|]. split; [exact H2|].
        intros x w Hx. lia.
      + destruct (IH (cur + 1) s') as (r & Er' & H); [lia|lia| |].
        { intros Hl Hnz. replace (cur + 1 - rs) with (cur - rs + 1) in * by lia.
          assert (Ed : (cur - rs + 1) / skip = (cur - rs) / skip).
          { symmetry. apply (N.div_unique (cur - rs + 1) skip _ ((cur - rs) mod skip + 1)); [|lia].
            destruct (N.eq_dec ((cur - rs) mod skip + 1) skip) as [E|E]; [|lia]. exfalso. apply Hnz.
            replace (cur - rs + 1) with (((cur - rs) / skip + 1) * skip) by lia. apply N.mod_mul. lia. }
          unfold good. cbv zeta. rewrite Ed. exact Hgs. }
        rewrite <- Hgs'. replace (cur - rs + 1) with (cur + 1 - rs) by lia. exists r. split; [exact Er'|].
        destruct r as [[x v]|].
        * destruct H as (H1 & H2 & H3 & H4). split; [lia|]. split; [exact H2|]. split; [exact H3|]. intros y w Hy Hw'.
          destruct (N.eq_dec y cur) as [->|Hne]; [now apply Hr'|]. apply H4; [lia|exact Hw'].
        * intros y w Hy Hw'. destruct (N.eq_dec y cur) as [->|Hne]; [now apply Hr'|]. apply H; [lia|exact Hw'].
  Qed.
End Main.

(** ** The values that are tried *)
Lemma b2n_inj b b' : b2n b = b2n b' -> b = b'.
Proof. intros H. rewrite <- (n2b_b2n b), <- (n2b_b2n b'). now rewrite H. Qed.
Lemma b2n_256 b : b2n b < 2 ^ 8.
Proof. apply Byte.to_N_bounded || (pose proof (Byte.to_N_bounded b); unfold b2n; lia). Qed.
Lemma three_bits i j : N.testbit (3 * 2 ^ i) j = (j =? i) || (j =? i + 1).
Proof.
  replace (3 * 2 ^ i) with (N.lxor (2 ^ i) (2 ^ (i + 1))).
  - rewrite N.lxor_spec, !N.pow2_bits_eqb. destruct (N.eqb_spec i j), (N.eqb_spec (i + 1) j), (N.eqb_spec j i), (N.eqb_spec j (i + 1)); cbn; try reflexivity; lia.
  - replace (2 ^ (i + 1)) with (2 * 2 ^ i) by (rewrite N.add_1_r, N.pow_succ_r'; reflexivity).
    replace (2 ^ i) with (1 * 2 ^ i) at 1 by lia. rewrite <- !N.shiftl_mul_pow2, <- N.shiftl_lxor. reflexivity.
Qed.
Lemma bit_eq b b' i : (forall j, N.testbit (b2n b') j = xorb (N.testbit (b2n b) j) (j =? i)) <-> b2n b' = N.lxor (b2n b) (2 ^ i).
Proof.
  split.
  - intros H. apply N.bits_inj. intros j. rewrite H, N.lxor_spec, N.pow2_bits_eqb. now rewrite N.eqb_sym.
  - intros H j. rewrite H, N.lxor_spec, N.pow2_bits_eqb. now rewrite N.eqb_sym.
Qed.
Lemma two_eq b b' i : (forall j, N.testbit (b2n b') j = xorb (N.testbit (b2n b) j) ((j =? i) || (j =? i + 1))) <-> b2n b' = N.lxor (b2n b) (3 * 2 ^ i).
Proof.
  split.
  - intros H. apply N.bits_inj. intros j. now rewrite H, N.lxor_spec, three_bits.
  - intros H j. now rewrite H, N.lxor_spec, three_bits.
Qed.
Lemma below_8 i : i < 8 -> i = 0 \/ i = 1 \/ i = 2 \/ i = 3 \/ i = 4 \/ i = 5 \/ i = 6 \/ i = 7.
Proof. lia. Qed.
Lemma tries_spec m b v : In v (tries m (b2n b)) <-> exists b', v = b2n b' /\ changed m b b'.
Proof.
  assert (X : forall e, e < 2 ^ 8 -> exists b', N.lxor (b2n b) e = b2n b').
  { intros e He. exists (n2b (N.lxor (b2n b) e)). rewrite b2n_n2b. symmetry. apply N.mod_small.
    change 256 with (2 ^ 8). apply lxor_lt; [apply b2n_256|exact He]. }
  destruct m; unfold tries, changed.
  - rewrite in_map_iff. split.
    + intros (i & <- & Hi). assert (Ei : exists j, j < 8 /\ N.shiftr 128 i = 2 ^ j).
      { cbn [In] in Hi. destruct Hi as [<-|[<-|[<-|[<-|[<-|[<-|[<-|[<-|[]]]]]]]]];
          [exists 7|exists 6|exists 5|exists 4|exists 3|exists 2|exists 1|exists 0]; split; reflexivity. }
      destruct Ei as (j & Hj & Ej). rewrite Ej. destruct (X (2 ^ j)) as (b' & Eb); [apply N.pow_lt_mono_r; lia|].
      exists b'. split; [exact Eb|]. exists j. split; [exact Hj|]. now apply bit_eq.
    + intros (b' & -> & i & Hi & H). apply bit_eq in H. exists (7 - i). rewrite H.
      apply below_8 in Hi. destruct Hi as [-> | [-> | [-> | [-> | [-> | [-> | [-> | ->]]]]]]]; (split; [reflexivity|cbn; tauto]).
  - rewrite in_map_iff. split.
    + intros (i & <- & Hi). apply in_seq in Hi. exists (n2b (N.of_nat i)). split; [|exact I]. rewrite b2n_n2b. symmetry. apply N.mod_small. lia.
    + intros (b' & -> & _). pose proof (b2n_256 b') as Hb. change (2 ^ 8) with 256 in Hb. exists (N.to_nat (b2n b')). split; [lia|]. apply in_seq. lia.
  - rewrite in_map_iff. split.
    + intros (i & <- & Hi). assert (Hi' : i < 7) by (cbn [In] in Hi; lia).
      rewrite N.shiftl_mul_pow2. destruct (X (3 * 2 ^ i)) as (b' & Eb).
      { assert (2 ^ i <= 2 ^ 6) by (apply N.pow_le_mono_r; lia). change (2 ^ 6) with 64 in *. change (2 ^ 8) with 256. lia. }
      exists b'. split; [exact Eb|]. exists i. split; [exact Hi'|]. now apply two_eq.
    + intros (b' & -> & i & Hi & H). apply two_eq in H. exists i. rewrite H, N.shiftl_mul_pow2. split; [reflexivity|]. cbn [In]. lia.
Qed.

(** ** Changes *)
Lemma split_at p (d : bytes) : p < lenN d -> exists x, dropN p d = x :: dropN (p + 1) d.
Proof.
  intros H. destruct (dropN p d) as [|x l] eqn:E.
  - apply (f_equal lenN) in E. rewrite lenN_dropN in E. cbn in E. lia.
  - exists x. f_equal. rewrite N.add_comm, <- dropN_dropN, E. cbn [dropN]. now rewrite dropN_0.
Qed.
Lemma change_put m a b p d d' : b <= lenN d -> change_at m a b p d d' <->
  a <= p < b /\ exists v, In v (tries m (nth_byte p d)) /\ d' = put d p v.
Proof.
  intros Hb. split.
  - intros (Hp & u & x & x' & w & Hu & -> & -> & Hc). split; [exact Hp|]. exists (b2n x'). split.
    + unfold nth_byte. rewrite dropN_app_exact by (now symmetry). apply tries_spec. now exists x'.
    + unfold put. rewrite takeN_app_exact by (now symmetry). rewrite n2b_b2n. rewrite dropN_app_ge by lia.
      replace (p + 1 - lenN u) with 1 by lia. cbn [dropN]. now rewrite dropN_0.
  - intros (Hp & v & Hv & ->). split; [exact Hp|]. destruct (split_at p d) as (x & Ex); [lia|].
    unfold nth_byte in Hv. rewrite Ex in Hv. apply tries_spec in Hv. destruct Hv as (x' & -> & Hc).
    exists (takeN p d), x, x', (dropN (p + 1) d). split; [rewrite lenN_takeN; lia|]. split.
    + rewrite <- Ex. symmetry. apply takeN_dropN.
    + split; [|exact Hc]. unfold put. now rewrite n2b_b2n.
Qed.
(** everything about the result *)
Lemma bitflip_spec asserts m skip expected range d a b : places range d a b -> a <= b -> 0 < skip ->
  exists r, bitflip asserts m skip expected range d = Ok r /\
  match r with
  | Some d' => crc32 d' = expected /\ exists p, change_at m a b p d d' /\ forall q e, change_at m a b q d e -> q < p -> crc32 e <> expected
  | None => forall e, change m a b d e -> crc32 e <> expected
  end.
Proof.
  intros Hp Hab Hs. unfold bitflip. assert (Hb : b <= lenN d) by (unfold places in Hp; destruct range as [[x y]|]; lia).
  assert (Ep : match range with Some (x, y) => (x, N.min y (lenN d)) | None => (0, lenN d) end = (a, b)).
  { unfold places in Hp. destruct range as [[x y]|]; destruct Hp as (-> & ->); reflexivity. }
  rewrite Ep. destruct (table_ok d a b skip Hab Hb Hs) as (t & Et & Ht & Hw & Hk). rewrite Et. cbn [bind].
  assert (Ev : (if asserts then validate_table d a b skip t else Ok tt) = Ok tt) by (destruct asserts; [now apply validate_table_ok|reflexivity]).
  rewrite Ev. cbn [bind].
  match goal with |- context [search _ _ _ _ _ _ _ _ ?n _ _ ?s] =>
    destruct (search_ok d a b skip Hab Hb Hs t Ht Hk asserts m expected n a s) as (r & Er & H) end.
  { lia. } { lia. } { intros _ Hn. rewrite N.sub_diag in Hn. destruct Hn. apply N.mod_0_l. lia. }
  rewrite N.sub_diag in Er. rewrite Er. cbn [bind]. eexists. split; [reflexivity|].
  destruct r as [[p v]|].
  - destruct H as (H1 & H2 & H3 & H4).
    assert (Eput : part 0 p d ++ [n2b v] ++ part (p + 1) (lenN d) d = put d p v).
    { rewrite part_0. unfold put, part. rewrite (takeN_all (lenN d - (p + 1))) by (rewrite lenN_dropN; lia). reflexivity. }
    rewrite Eput. split; [exact H3|]. exists p. split; [apply change_put; [exact Hb|]; split; [exact H1|now exists v]|].
    intros q e Hq Hlt. apply change_put in Hq; [|exact Hb]. destruct Hq as (Hq & w & Hw' & ->). apply H4; [lia|exact Hw'].
  - intros e (q & Hq). apply change_put in Hq; [|exact Hb]. destruct Hq as (Hq & w & Hw' & ->). now apply H.
Qed.
Lemma crc_is d c : is_crc32 d c <-> crc32 d = c.
Proof.
  split; [intros H; symmetry; exact (is_crc32_unique d c (crc32 d) H (crc32_is d))|intros <-; apply crc32_is].
Qed.

(** ** The theorems *)
Theorem total_thm asserts m skip expected range d a b : places range d a b -> a <= b -> 0 < skip ->
  exists r, bitflip asserts m skip expected range d = Ok r.
Proof. intros Hp Hab Hs. destruct (bitflip_spec asserts m skip expected range d a b Hp Hab Hs) as (r & E & _). now exists r. Qed.
Theorem found_thm asserts m skip expected range d a b d' : places range d a b -> a <= b -> 0 < skip ->
  bitflip asserts m skip expected range d = Ok (Some d') ->
  is_crc32 d' expected /\ exists p, change_at m a b p d d' /\ forall q e, change_at m a b q d e -> q < p -> ~ is_crc32 e expected.
Proof.
  intros Hp Hab Hs E. destruct (bitflip_spec asserts m skip expected range d a b Hp Hab Hs) as (r & E' & H).
  rewrite E in E'. apply ok_inj in E'. subst r. destruct H as (H1 & p & H2 & H3). split; [now apply crc_is|].
  exists p. split; [exact H2|]. intros q e Hq Hl Hc. apply (H3 q e Hq Hl). now apply crc_is.
Qed.
Theorem none_thm asserts m skip expected range d a b : places range d a b -> a <= b -> 0 < skip ->
  bitflip asserts m skip expected range d = Ok None <-> forall e, change m a b d e -> ~ is_crc32 e expected.
Proof.
  intros Hp Hab Hs. destruct (bitflip_spec asserts m skip expected range d a b Hp Hab Hs) as (r & E' & H). rewrite E'. split.
  - intros E. apply ok_inj in E. subst r. intros e He Hc. apply (H e He). now apply crc_is.
  - intros Hn. destruct r as [d'|]; [|reflexivity]. destruct H as (H1 & p & H2 & _). exfalso.
    apply (Hn d'); [now exists p|now apply crc_is].
Qed.
Lemma app_inv_len {A} (a b c e : list A) : a ++ b = c ++ e -> lenN a = lenN c -> a = c /\ b = e.
Proof.
  revert c. induction a as [|x a IH]; intros [|y c] H L; rewrite ?lenN_cons in L; cbn [lenN] in L; try lia.
  - auto.
  - cbn [app] in H. injection H as -> H. destruct (IH c H) as (-> & ->); [lia|auto].
Qed.
Lemma unique_change e (d d1 d2 : bytes) u1 x1 y1 v1 i1 u2 x2 y2 v2 i2 :
  (forall m n, m < n -> n - m < PERIOD -> N.iter m crc_bit e <> N.iter n crc_bit e) -> lenN d < 2 ^ 29 ->
  d = u1 ++ x1 :: v1 -> d1 = u1 ++ y1 :: v1 -> i1 < 8 -> b2n y1 = N.lxor (b2n x1) (e * 2 ^ i1) ->
  d = u2 ++ x2 :: v2 -> d2 = u2 ++ y2 :: v2 -> i2 < 8 -> b2n y2 = N.lxor (b2n x2) (e * 2 ^ i2) ->
  crc32 d1 = crc32 d2 -> d1 = d2.
Proof.
  intros He Hl E1 F1 Hi1 Hy1 E2 F2 Hi2 Hy2 Hc.
  assert (C : forall u x y v i w, d = u ++ x :: v -> w = u ++ y :: v -> i < 8 -> b2n y = N.lxor (b2n x) (e * 2 ^ i) ->
    crc32 w = N.lxor (crc32 d) (N.iter (8 * (lenN v + 1) - i) crc_bit e)).
  { intros u x y v i w -> -> Hi Hy. rewrite (crc32_change u x y v), Hy. rewrite <- N.lxor_assoc, N.lxor_nilpotent, N.lxor_0_l.
    rewrite iter_shift by lia. reflexivity. }
  rewrite (C u1 x1 y1 v1 i1 d1 E1 F1 Hi1 Hy1), (C u2 x2 y2 v2 i2 d2 E2 F2 Hi2 Hy2) in Hc.
  apply (f_equal (N.lxor (crc32 d))) in Hc. rewrite <- !N.lxor_assoc, !N.lxor_nilpotent, !N.lxor_0_l in Hc.
  assert (L1 : lenN d = lenN u1 + (1 + lenN v1)) by (rewrite E1, lenN_app, lenN_cons; reflexivity).
  assert (L2 : lenN d = lenN u2 + (1 + lenN v2)) by (rewrite E2, lenN_app, lenN_cons; reflexivity).
  change (2 ^ 29) with 536870912 in Hl. unfold PERIOD in He.
  assert (K : 8 * (lenN v1 + 1) - i1 = 8 * (lenN v2 + 1) - i2).
  { destruct (N.lt_trichotomy (8 * (lenN v1 + 1) - i1) (8 * (lenN v2 + 1) - i2)) as [H|[H|H]]; [|exact H|].
    - exfalso. apply (He _ _ H); [lia|exact Hc].
    - exfalso. apply (He _ _ H); [lia|now symmetry]. }
  assert (Ei : i1 = i2) by lia. assert (Ev : lenN v1 = lenN v2) by lia. subst i2.
  rewrite E1 in E2. apply app_inv_len in E2; [|lia]. destruct E2 as (Eu & Exv). injection Exv as Ex Ev'. subst u2 x2 v2.
  rewrite F1, F2. do 2 f_equal. apply b2n_inj. now rewrite Hy1, Hy2.
Qed.
Theorem exact_thm asserts m skip expected range d a b d' : m <> MByte -> lenN d < 2 ^ 29 -> places range d a b -> 0 < skip ->
  change m a b d d' -> is_crc32 d' expected -> bitflip asserts m skip expected range d = Ok (Some d').
Proof.
  intros Hm Hl Hp Hs Hc Hi. assert (Hab : a <= b) by (destruct Hc as (p & Hab & _); lia).
  destruct (bitflip_spec asserts m skip expected range d a b Hp Hab Hs) as (r & E & H). rewrite E. f_equal.
  apply crc_is in Hi. destruct r as [d1|]; [|destruct (H d' Hc Hi)]. f_equal. destruct H as (H1 & p & Hp1 & _).
  destruct Hc as (q & Hq). destruct Hp1 as (_ & u1 & x1 & y1 & v1 & _ & E1 & F1 & C1). destruct Hq as (_ & u2 & x2 & y2 & v2 & _ & E2 & F2 & C2).
  assert (Hcc : crc32 d1 = crc32 d') by congruence. destruct m; [|congruence|]; cbn [changed] in C1, C2;
    destruct C1 as (i1 & Hi1 & C1); destruct C2 as (i2 & Hi2 & C2).
  - apply bit_eq in C1, C2. apply (unique_change 1 d d1 d' u1 x1 y1 v1 i1 u2 x2 y2 v2 i2); try assumption; rewrite ?N.mul_1_l; try assumption. apply iter_one.
  - apply two_eq in C1, C2. apply (unique_change 3 d d1 d' u1 x1 y1 v1 i1 u2 x2 y2 v2 i2); try assumption; try lia. apply iter_three.
Qed.
(** a file that is right *)
Theorem same_thm asserts skip expected range d a b : places range d a b -> a < b -> 0 < skip ->
  is_crc32 d expected -> bitflip asserts MByte skip expected range d = Ok (Some d).
Proof.
  intros Hp Hab Hs Hi. assert (Hb : b <= lenN d) by (unfold places in Hp; destruct range as [[x y]|]; lia).
  destruct (bitflip_spec asserts MByte skip expected range d a b Hp ltac:(lia) Hs) as (r & E & H). rewrite E. f_equal.
  apply crc_is in Hi. assert (Ha : change_at MByte a b a d d).
  { split; [lia|]. destruct (split_at a d) as (x & Ex); [lia|]. exists (takeN a d), x, x, (dropN (a + 1) d).
    rewrite <- Ex, takeN_dropN. split; [rewrite lenN_takeN; lia|]. split; [reflexivity|]. split; [reflexivity|exact I]. }
  destruct r as [d1|]; [|destruct (H d); [now exists a|exact Hi]]. f_equal. destruct H as (H1 & p & Hp1 & H2).
  assert (Epa : p = a). { destruct (N.eq_dec p a) as [Hpa|Hpa]; [exact Hpa|]. destruct Hp1 as (Hr & _). destruct (H2 a d Ha); [lia|exact Hi]. }
  destruct Hp1 as (_ & u1 & x1 & y1 & v1 & _ & E1 & F1 & _). rewrite E1, F1. do 2 f_equal.
  apply (crc32_byte u1 x1 y1 v1). rewrite <- E1, <- F1. congruence.
Qed.
(** the first of two *)
Lemma differ_at (u1 u2 : bytes) x1 y1 v1 x2 y2 v2 : u1 ++ x1 :: v1 = u2 ++ x2 :: v2 -> u1 ++ y1 :: v1 = u2 ++ y2 :: v2 ->
  x2 <> y2 -> lenN u1 = lenN u2.
Proof.
  revert u2. induction u1 as [|z u1 IH]; intros [|w u2] E F Hn; cbn [app] in E, F.
  - reflexivity.
  - injection E as E1 E2. injection F as F1 F2. rewrite E2 in F2. apply app_inv_head in F2. congruence.
  - injection E as E1 E2. injection F as F1 F2. congruence.
  - injection E as E1 E2. injection F as F1 F2. rewrite !lenN_cons. f_equal. now apply IH.
Qed.
Lemma wrong_one asserts m skip range d a b p q d1 d2 u x y v : places range d a b -> a <= b -> 0 < skip ->
  change_at m a b p d d1 -> p < q -> lenN u = q -> d = u ++ x :: v -> d2 = u ++ y :: v -> x <> y -> crc32 d1 = crc32 d2 ->
  bitflip asserts m skip (crc32 d2) range d <> Ok (Some d2).
Proof.
  intros Hp Hab Hs H1 Hpq Hu E F Hxy Hc B.
  destruct (bitflip_spec asserts m skip (crc32 d2) range d a b Hp Hab Hs) as (r & Er & H). rewrite B in Er. apply ok_inj in Er. subst r.
  destruct H as (_ & p2 & (_ & u2 & x2 & y2 & v2 & Hu2 & E2 & F2 & _) & H2).
  assert (L : lenN u2 = lenN u) by (apply (differ_at u2 u x2 y2 v2 x y v); congruence).
  apply (H2 p d1 H1); [lia|exact Hc].
Qed.
Lemma ends_crc (z : bytes) e1 e2 n : lenN z + 1 = n -> N.iter (8 * n) crc_bit (b2n e1) = b2n e2 ->
  crc32 (e1 :: z ++ [x00]) = crc32 (x00 :: z ++ [e2]).
Proof.
  intros Hn H. change (e1 :: z ++ [x00]) with ([] ++ e1 :: (z ++ [x00])). rewrite (crc32_change [] x00 e1 (z ++ [x00])).
  change (x00 :: z ++ [e2]) with ((x00 :: z) ++ e2 :: []). rewrite (crc32_change (x00 :: z) x00 e2 []).
  change (b2n x00) with 0. rewrite !N.lxor_0_l. rewrite lenN_app. change (lenN [x00]) with 1. rewrite Hn.
  rewrite N.mul_add_distr_l, N.add_comm, crc_iter_add, H. reflexivity.
Qed.
Lemma wrong_end asserts m skip (z : bytes) e1 e2 n : 0 < skip -> lenN z + 1 = n -> N.iter (8 * n) crc_bit (b2n e1) = b2n e2 ->
  changed m x00 e1 -> changed m x00 e2 -> x00 <> e2 -> exists d d' c, lenN d = n + 1 /\ change m 0 (lenN d) d d' /\ is_crc32 d' c /\
  bitflip asserts m skip c None d <> Ok (Some d').
Proof.
  intros Hs Hn H H1 H2 Hne. assert (Ld : lenN (x00 :: z ++ [x00]) = n + 1) by (rewrite lenN_cons, lenN_app; change (lenN [x00]) with 1; lia).
  assert (C2 : change_at m 0 (lenN (x00 :: z ++ [x00])) n (x00 :: z ++ [x00]) (x00 :: z ++ [e2])).
  { split; [lia|]. exists (x00 :: z), x00, e2, []. split; [rewrite lenN_cons; lia|].
    split; [reflexivity|]. split; [reflexivity|exact H2]. }
  assert (C1 : change_at m 0 (lenN (x00 :: z ++ [x00])) 0 (x00 :: z ++ [x00]) (e1 :: z ++ [x00])).
  { split; [lia|]. exists [], x00, e1, (z ++ [x00]). split; [reflexivity|]. split; [reflexivity|]. split; [reflexivity|exact H1]. }
  exists (x00 :: z ++ [x00]), (x00 :: z ++ [e2]), (crc32 (x00 :: z ++ [e2])). split; [exact Ld|]. split; [eexists; exact C2|]. split; [apply crc32_is|].
  apply (wrong_one asserts m skip None _ 0 (lenN (x00 :: z ++ [x00])) 0 n (e1 :: z ++ [x00]) _ (x00 :: z) x00 e2 []).
  - split; reflexivity.
  - lia.
  - exact Hs.
  - exact C1.
  - lia.
  - rewrite lenN_cons. lia.
  - reflexivity.
  - reflexivity.
  - exact Hne.
  - now apply (ends_crc z e1 e2 n).
Qed.
Lemma back_bits n : back n -> forall k, k + 7 = n -> N.iter k crc_bit 1 = 128.
Proof.
  intros Hb k Hk. unfold back in Hb. apply (iter_inj 7); [now apply iter_lt|reflexivity|].
  rewrite <- crc_iter_add, N.add_comm, Hk, Hb. reflexivity.
Qed.
Theorem long_thm asserts skip : 0 < skip -> exists d d' c, lenN d = 2 ^ 29 /\ change MBit 0 (lenN d) d d' /\ is_crc32 d' c /\
  bitflip asserts MBit skip c None d <> Ok (Some d').
Proof.
  intros Hs. apply (wrong_end asserts MBit skip (repN 536870910 x00) x01 (n2b 128) 536870911 Hs).
  - rewrite lenN_repN. reflexivity.
  - exact (back_bits PERIOD period_back 4294967288 eq_refl).
  - exists 0. split; [reflexivity|]. apply bit_eq. reflexivity.
  - exists 7. split; [reflexivity|]. apply bit_eq. reflexivity.
  - discriminate.
Qed.
Lemma two_bytes : N.iter (2 * 580848) crc_bit 248 = 169.
Proof. apply loop_iter; [reflexivity|vm_compute; reflexivity|reflexivity]. Qed.
Theorem byte_thm asserts skip : 0 < skip -> exists d d' c, lenN d = 145213 /\ change MByte 0 (lenN d) d d' /\ is_crc32 d' c /\
  bitflip asserts MByte skip c None d <> Ok (Some d').
Proof.
  intros Hs. apply (wrong_end asserts MByte skip (repN 145211 x00) (n2b 248) (n2b 169) 145212 Hs).
  - rewrite lenN_repN. reflexivity.
  - exact two_bytes.
  - exact I.
  - exact I.
  - discriminate.
Qed.
