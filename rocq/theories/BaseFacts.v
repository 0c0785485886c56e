(** Lemmas about Base. *)
From Verif Require Import Base.
From Coq Require Export Lia ZifyBool ZifyNat ZifyN.
Ltac Zify.zify_post_hook ::= Z.div_mod_to_equations.

Lemma bind_ok {A B} (r : result A) (f : A -> result B) b :
  bind r f = Ok b -> exists a, r = Ok a /\ f a = Ok b.
Proof. destruct r; cbn; [eauto|discriminate]. Qed.

Lemma some_inj {A} (a b : A) : Some a = Some b -> a = b.
Proof. congruence. Qed.
Lemma ok_inj {A} (a b : A) : Ok a = Ok b -> a = b.
Proof. congruence. Qed.

Lemma lenN_length {A} (l : list A) : lenN l = N.of_nat (length l).
Proof. induction l as [|x l IH]; cbn [lenN length]; lia. Qed.

Lemma lenN_app {A} (a b : list A) : lenN (a ++ b) = lenN a + lenN b.
Proof. rewrite !lenN_length, app_length. lia. Qed.

Lemma lenN_nil {A} : lenN (@nil A) = 0. Proof. reflexivity. Qed.
Lemma lenN_cons {A} (x : A) l : lenN (x :: l) = 1 + lenN l.
Proof. cbn [lenN]. lia. Qed.

Lemma lenN_map {A B} (f : A -> B) l : lenN (map f l) = lenN l.
Proof. rewrite !lenN_length, map_length. reflexivity. Qed.

Lemma lenN_rev {A} (l : list A) : lenN (rev l) = lenN l.
Proof. rewrite !lenN_length, rev_length. reflexivity. Qed.

Lemma lenN_repN {A} n (x : A) : lenN (repN n x) = n.
Proof. unfold repN. rewrite lenN_length, repeat_length. lia. Qed.

Lemma lenN_0 {A} (l : list A) : lenN l = 0 -> l = [].
Proof. destruct l; [reflexivity|rewrite lenN_cons; lia]. Qed.

Lemma takeN_firstn {A} n (l : list A) : takeN n l = firstn (N.to_nat n) l.
Proof.
  revert n; induction l as [|x l IH]; intros n; cbn [takeN].
  - now rewrite firstn_nil.
  - destruct (N.eqb_spec n 0) as [->|Hn]; [reflexivity|].
    rewrite IH. replace (N.to_nat n) with (S (N.to_nat (N.pred n))) by lia. reflexivity.
Qed.

Lemma dropN_skipn {A} n (l : list A) : dropN n l = skipn (N.to_nat n) l.
Proof.
  revert n; induction l as [|x l IH]; intros n; cbn [dropN].
  - now rewrite skipn_nil.
  - destruct (N.eqb_spec n 0) as [->|Hn]; [reflexivity|].
    rewrite IH. replace (N.to_nat n) with (S (N.to_nat (N.pred n))) by lia. reflexivity.
Qed.

Lemma takeN_0 {A} (l : list A) : takeN 0 l = [].
Proof. now destruct l. Qed.
Lemma dropN_0 {A} (l : list A) : dropN 0 l = l.
Proof. now destruct l. Qed.

Lemma takeN_dropN {A} n (l : list A) : takeN n l ++ dropN n l = l.
Proof. rewrite takeN_firstn, dropN_skipn. apply firstn_skipn. Qed.

Lemma lenN_takeN {A} n (l : list A) : lenN (takeN n l) = N.min n (lenN l).
Proof. rewrite takeN_firstn, !lenN_length, firstn_length. lia. Qed.
Lemma lenN_dropN {A} n (l : list A) : lenN (dropN n l) = lenN l - n.
Proof. rewrite dropN_skipn, !lenN_length, skipn_length. lia. Qed.
Lemma lenN_sub {A} o n (l : list A) : lenN (sub o n l) = N.min n (lenN l - o).
Proof. unfold sub. now rewrite lenN_takeN, lenN_dropN. Qed.

Lemma takeN_app {A} n (a b : list A) :
  takeN n (a ++ b) = takeN n a ++ takeN (n - lenN a) b.
Proof.
  rewrite !takeN_firstn, firstn_app, lenN_length.
  f_equal. f_equal. lia.
Qed.
Lemma dropN_app {A} n (a b : list A) :
  dropN n (a ++ b) = dropN n a ++ dropN (n - lenN a) b.
Proof.
  rewrite !dropN_skipn, skipn_app, lenN_length.
  f_equal. f_equal. lia.
Qed.
Lemma takeN_all {A} n (l : list A) : lenN l <= n -> takeN n l = l.
Proof. intros H. rewrite takeN_firstn. apply firstn_all2. rewrite lenN_length in H. lia. Qed.
Lemma dropN_all {A} n (l : list A) : lenN l <= n -> dropN n l = [].
Proof. intros H. rewrite dropN_skipn. apply skipn_all2. rewrite lenN_length in H. lia. Qed.

Lemma takeN_app_exact {A} (a b : list A) n : n = lenN a -> takeN n (a ++ b) = a.
Proof. intros ->. rewrite takeN_app, N.sub_diag, takeN_0, app_nil_r. apply takeN_all. lia. Qed.
Lemma dropN_app_exact {A} (a b : list A) n : n = lenN a -> dropN n (a ++ b) = b.
Proof. intros ->. rewrite dropN_app, N.sub_diag, dropN_0, dropN_all by lia. reflexivity. Qed.
Lemma dropN_app_ge {A} (a b : list A) n :
  lenN a <= n -> dropN n (a ++ b) = dropN (n - lenN a) b.
Proof. intros H. rewrite dropN_app, dropN_all by lia. reflexivity. Qed.
Lemma takeN_app_le {A} (a b : list A) n : n <= lenN a -> takeN n (a ++ b) = takeN n a.
Proof.
  intros H. rewrite takeN_app. replace (n - lenN a) with 0 by lia.
  now rewrite takeN_0, app_nil_r.
Qed.
Lemma dropN_dropN {A} a b (l : list A) : dropN a (dropN b l) = dropN (a + b) l.
Proof.
  rewrite !dropN_skipn. revert l. replace (N.to_nat (a+b)) with (N.to_nat b + N.to_nat a)%nat by lia.
  induction (N.to_nat b) as [|k IH]; intros l; [reflexivity|].
  destruct l; [now rewrite !skipn_nil|]. cbn. apply IH.
Qed.
Lemma takeN_takeN {A} a b (l : list A) : takeN a (takeN b l) = takeN (N.min a b) l.
Proof. rewrite !takeN_firstn, firstn_firstn. f_equal. lia. Qed.
Lemma takeN_add {A} a b (l : list A) : takeN (a + b) l = takeN a l ++ takeN b (dropN a l).
Proof.
  rewrite !takeN_firstn, dropN_skipn. replace (N.to_nat (a+b)) with (N.to_nat a + N.to_nat b)%nat by lia.
  revert l; induction (N.to_nat a) as [|k IH]; intros l; [reflexivity|].
  destruct l; [now rewrite skipn_nil, !firstn_nil|]. cbn. now rewrite IH.
Qed.
Lemma dropN_takeN {A} a b (l : list A) : dropN a (takeN b l) = takeN (b - a) (dropN a l).
Proof. rewrite !takeN_firstn, !dropN_skipn, skipn_firstn_comm. f_equal. lia. Qed.
Lemma takeN_app_ge {A} (a b : list A) n :
  lenN a <= n -> takeN n (a ++ b) = a ++ takeN (n - lenN a) b.
Proof. intros H. rewrite takeN_app, takeN_all by lia. reflexivity. Qed.

Lemma sub_app_skip {A} (a b : list A) o n :
  lenN a <= o -> sub o n (a ++ b) = sub (o - lenN a) n b.
Proof. intros H. unfold sub. now rewrite dropN_app_ge by lia. Qed.
Lemma sub_app_exact {A} (a b c : list A) o n :
  o = lenN a -> n = lenN b -> sub o n (a ++ b ++ c) = b.
Proof. intros -> ->. unfold sub. rewrite dropN_app_exact by reflexivity. now apply takeN_app_exact. Qed.
Lemma sub_0 {A} n (l : list A) : sub 0 n l = takeN n l.
Proof. unfold sub. now rewrite dropN_0. Qed.

Lemma repN_app {A} a b (x : A) : repN (a + b) x = repN a x ++ repN b x.
Proof. unfold repN. rewrite N2Nat.inj_add. apply repeat_app. Qed.
Lemma repN_0 {A} (x : A) : repN 0 x = []. Proof. reflexivity. Qed.
Lemma repN_succ {A} n (x : A) : repN (N.succ n) x = x :: repN n x.
Proof. unfold repN. now rewrite N2Nat.inj_succ. Qed.
Lemma takeN_repN {A} a b (x : A) : takeN a (repN b x) = repN (N.min a b) x.
Proof.
  destruct (N.le_gt_cases a b) as [H|H].
  - replace b with (a + (b - a)) at 1 by lia. rewrite repN_app.
    rewrite takeN_app_exact by (now rewrite lenN_repN). f_equal. lia.
  - rewrite takeN_all by (rewrite lenN_repN; lia). f_equal. lia.
Qed.
Lemma dropN_repN {A} a b (x : A) : dropN a (repN b x) = repN (b - a) x.
Proof.
  destruct (N.le_gt_cases a b) as [H|H].
  - replace b with (a + (b - a)) at 1 by lia. rewrite repN_app.
    apply dropN_app_exact. now rewrite lenN_repN.
  - rewrite dropN_all by (rewrite lenN_repN; lia). replace (b - a) with 0 by lia. reflexivity.
Qed.

(** ** Bytes *)
Lemma b2n_lt b : b2n b < 256.
Proof. unfold b2n. pose proof (Byte.to_N_bounded b). lia. Qed.

Lemma n2b_b2n b : n2b (b2n b) = b.
Proof.
  unfold n2b, b2n. rewrite N.mod_small by (pose proof (Byte.to_N_bounded b); lia).
  now rewrite Byte.of_to_N.
Qed.

Lemma b2n_n2b n : b2n (n2b n) = n mod 256.
Proof.
  unfold n2b, b2n. destruct (Byte.of_N (n mod 256)) as [b|] eqn:E.
  - now apply Byte.to_of_N in E.
  - apply Byte.of_N_None_iff in E. pose proof (N.mod_lt n 256). lia.
Qed.

Lemma b2n_n2b_small n : n < 256 -> b2n (n2b n) = n.
Proof. intros H. rewrite b2n_n2b. now apply N.mod_small. Qed.

Lemma b2n_inj a b : b2n a = b2n b -> a = b.
Proof. intros H. rewrite <- (n2b_b2n a), <- (n2b_b2n b). now rewrite H. Qed.

Lemma beqb_spec' (a b : byte) : Byte.eqb a b = true <-> a = b.
Proof. split; [apply Byte.byte_dec_bl|apply Byte.byte_dec_lb]. Qed.

Lemma list_eqb_spec {A} (eqb : A -> A -> bool) :
  (forall x y, eqb x y = true <-> x = y) ->
  forall a b, list_eqb eqb a b = true <-> a = b.
Proof.
  intros H a; induction a as [|x a IH]; intros [|y b]; cbn [list_eqb]; try easy.
  rewrite andb_true_iff, H, IH. split; [intros [-> ->]; reflexivity|intros E; inversion E; auto].
Qed.
Lemma beqb_eq a b : beqb a b = true <-> a = b.
Proof. apply list_eqb_spec, beqb_spec'. Qed.
Lemma teqb_eq a b : teqb a b = true <-> a = b.
Proof. apply list_eqb_spec, N.eqb_eq. Qed.
Lemma teqb_refl a : teqb a a = true.
Proof. now apply teqb_eq. Qed.
Lemma beqb_refl a : beqb a a = true.
Proof. now apply beqb_eq. Qed.
Lemma teqb_neq a b : teqb a b = false <-> a <> b.
Proof. rewrite <- teqb_eq. destruct (teqb a b); split; congruence. Qed.
Lemma teqb_sym a b : teqb a b = teqb b a.
Proof.
  destruct (teqb a b) eqn:E; symmetry.
  - apply teqb_eq in E. subst. apply teqb_refl.
  - apply teqb_neq in E. apply teqb_neq. congruence.
Qed.
Lemma text_eq_dec (a b : text) : {a = b} + {a <> b}.
Proof. apply list_eq_dec, N.eq_dec. Qed.
Lemma mem_text_In x l : mem_text x l = true <-> In x l.
Proof.
  unfold mem_text. rewrite existsb_exists. split.
  - intros [y [Hy E]]. apply teqb_eq in E. now subst.
  - intros H. exists x. split; [exact H|apply teqb_refl].
Qed.

(** ** Integer codecs *)
Lemma lenN_le k n : lenN (le k n) = N.of_nat k.
Proof. revert n; induction k as [|k IH]; intros n; cbn [le]; [reflexivity|]. rewrite lenN_cons, IH. lia. Qed.
Lemma lenN_be k n : lenN (be k n) = N.of_nat k.
Proof. unfold be. now rewrite lenN_rev, lenN_le. Qed.

Lemma pow256 k : 2 ^ (8 * N.of_nat (S k)) = 256 * 2 ^ (8 * N.of_nat k).
Proof.
  replace (8 * N.of_nat (S k)) with (8 + 8 * N.of_nat k) by lia.
  rewrite N.pow_add_r. reflexivity.
Qed.

Lemma unle_le k n : unle (le k n) = n mod 2 ^ (8 * N.of_nat k).
Proof.
  revert n; induction k as [|k IH]; intros n; cbn [le unle].
  - change (2 ^ (8 * N.of_nat 0)) with 1. now rewrite N.mod_1_r.
  - rewrite b2n_n2b, IH, pow256.
    rewrite N.mod_mul_r by (try apply N.pow_nonzero; lia). reflexivity.
Qed.
Lemma unle_le_small k n : n < 2 ^ (8 * N.of_nat k) -> unle (le k n) = n.
Proof. intros H. rewrite unle_le. now apply N.mod_small. Qed.

Lemma unle_lt l : unle l < 2 ^ (8 * lenN l).
Proof.
  induction l as [|b l IH]; [reflexivity|]. cbn [unle].
  rewrite lenN_cons. replace (8 * (1 + lenN l)) with (8 + 8 * lenN l) by lia.
  rewrite N.pow_add_r. change (2 ^ 8) with 256. pose proof (b2n_lt b). lia.
Qed.
Lemma le_unle l : le (length l) (unle l) = l.
Proof.
  induction l as [|b l IH]; [reflexivity|]. cbn [unle le length].
  f_equal.
  - apply b2n_inj. rewrite b2n_n2b. pose proof (b2n_lt b). lia.
  - transitivity (le (length l) (unle l)); [|exact IH]. f_equal. pose proof (b2n_lt b). lia.
Qed.
Lemma unbe_be_small k n : n < 2 ^ (8 * N.of_nat k) -> unbe (be k n) = n.
Proof. intros H. unfold unbe, be. rewrite rev_involutive. now apply unle_le_small. Qed.
Lemma be_unbe l : be (length l) (unbe l) = l.
Proof.
  unfold be, unbe. rewrite <- (rev_length l). rewrite le_unle. apply rev_involutive.
Qed.
Lemma unbe_lt l : unbe l < 2 ^ (8 * lenN l).
Proof. unfold unbe. rewrite <- (lenN_rev l). apply unle_lt. Qed.

Lemma pack_ok k n : n < 2 ^ (8 * N.of_nat k) -> pack k n = Ok (le k n).
Proof. intros H. unfold pack. destruct (N.ltb_spec n (2 ^ (8 * N.of_nat k))); [reflexivity|lia]. Qed.
Lemma pack_inv k n b : pack k n = Ok b -> n < 2 ^ (8 * N.of_nat k) /\ b = le k n.
Proof.
  unfold pack. destruct (N.ltb_spec n (2 ^ (8 * N.of_nat k))); [|discriminate].
  intros E; inversion E; auto.
Qed.

Lemma unpack_app a k n c o :
  o = lenN a -> n < 2 ^ (8 * N.of_nat k) -> unpack k (a ++ le k n ++ c) o = Ok n.
Proof.
  intros Ho Hn. unfold unpack. rewrite sub_app_exact by (rewrite ?lenN_le; auto).
  rewrite lenN_le, N.eqb_refl. now rewrite unle_le_small.
Qed.
Lemma unpack_app_skip a b k o :
  lenN a <= o -> unpack k (a ++ b) o = unpack k b (o - lenN a).
Proof. intros H. unfold unpack. now rewrite sub_app_skip. Qed.
Lemma unpack_le0 k n c : n < 2 ^ (8 * N.of_nat k) -> unpack k (le k n ++ c) 0 = Ok n.
Proof. intros H. apply (unpack_app [] k n c 0); auto. Qed.
Lemma unpack_app_l a b k o v : unpack k a o = Ok v -> unpack k (a ++ b) o = Ok v.
Proof.
  unfold unpack. destruct (N.eqb_spec (lenN (sub o (N.of_nat k) a)) (N.of_nat k)) as [E|]; [|discriminate].
  intros H. rewrite lenN_sub in E.
  assert (sub o (N.of_nat k) (a ++ b) = sub o (N.of_nat k) a) as ->.
  { unfold sub. destruct k as [|k].
    - now rewrite !takeN_0.
    - rewrite dropN_app. replace (o - lenN a) with 0 by lia. rewrite dropN_0.
      apply takeN_app_le. rewrite lenN_dropN. lia. }
  rewrite lenN_sub. rewrite E, N.eqb_refl. exact H.
Qed.
Lemma unpack_lt k b o v : unpack k b o = Ok v -> v < 2 ^ (8 * N.of_nat k).
Proof.
  unfold unpack. destruct (N.eqb_spec (lenN (sub o (N.of_nat k) b)) (N.of_nat k)) as [E|]; [|discriminate].
  intros H; inversion H; subst. pose proof (unle_lt (sub o (N.of_nat k) b)) as Hl. now rewrite E in Hl.
Qed.
Lemma unpack_ok k b o : o + N.of_nat k <= lenN b -> exists v, unpack k b o = Ok v.
Proof.
  intros H. unfold unpack. rewrite lenN_sub.
  replace (N.min (N.of_nat k) (lenN b - o)) with (N.of_nat k) by lia.
  rewrite N.eqb_refl. eauto.
Qed.
Lemma unpack_ok_len k b o v : unpack k b o = Ok v -> k <> O -> o + N.of_nat k <= lenN b.
Proof.
  unfold unpack. rewrite lenN_sub.
  destruct (N.eqb_spec (N.min (N.of_nat k) (lenN b - o)) (N.of_nat k)) as [E|]; [|discriminate]. lia.
Qed.

(** ** UTF-8 round trips *)
Definition valid_text (t : text) : Prop := exists b, utf8_enc t = Some b.

Lemma cont_n2b x : x < 64 -> cont (n2b (0x80 + x)) = Some x.
Proof.
  intros H. unfold cont. rewrite b2n_n2b_small by lia.
  destruct (N.leb_spec 0x80 (0x80 + x)); [|lia].
  destruct (N.ltb_spec (0x80 + x) 0xC0); [|lia]. cbn [andb]. f_equal. lia.
Qed.

Lemma utf8_dec_enc1 c b t rest :
  utf8_enc1 c = Some b -> utf8_dec rest = Some t -> utf8_dec (b ++ rest) = Some (c :: t).
Proof.
  unfold utf8_enc1. intros H Hr.
  destruct (N.ltb_spec c 0x80) as [H1|H1].
  { apply some_inj in H; subst b. cbn [app utf8_dec]. rewrite b2n_n2b_small by lia.
    destruct (N.ltb_spec c 0x80); [|lia]. now rewrite Hr. }
  destruct (N.ltb_spec c 0x800) as [H2|H2].
  { apply some_inj in H; subst b. cbn [app utf8_dec]. rewrite b2n_n2b_small by lia.
    destruct (N.ltb_spec (0xC0 + c / 64) 0x80); [lia|].
    destruct (N.ltb_spec (0xC0 + c / 64) 0xC2); [lia|].
    destruct (N.ltb_spec (0xC0 + c / 64) 0xE0); [|lia].
    rewrite cont_n2b by lia. rewrite Hr. cbn [option_map]. do 2 f_equal. lia. }
  destruct (is_surrogate c) eqn:Hs; [discriminate|].
  destruct (N.ltb_spec c 0x10000) as [H3|H3].
  { apply some_inj in H; subst b. cbn [app utf8_dec]. rewrite b2n_n2b_small by lia.
    destruct (N.ltb_spec (0xE0 + c / 4096) 0x80); [lia|].
    destruct (N.ltb_spec (0xE0 + c / 4096) 0xC2); [lia|].
    destruct (N.ltb_spec (0xE0 + c / 4096) 0xE0); [lia|].
    destruct (N.ltb_spec (0xE0 + c / 4096) 0xF0); [|lia].
    rewrite !cont_n2b by lia.
    replace ((0xE0 + c / 4096 - 0xE0) * 4096 + (c / 64) mod 64 * 64 + c mod 64) with c by lia.
    rewrite Hs. destruct (N.ltb_spec c 0x800); [lia|]. cbn [orb]. now rewrite Hr. }
  destruct (N.ltb_spec c 0x110000) as [H4|H4]; [|discriminate].
  apply some_inj in H; subst b. cbn [app utf8_dec]. rewrite b2n_n2b_small by lia.
  destruct (N.ltb_spec (0xF0 + c / 262144) 0x80); [lia|].
  destruct (N.ltb_spec (0xF0 + c / 262144) 0xC2); [lia|].
  destruct (N.ltb_spec (0xF0 + c / 262144) 0xE0); [lia|].
  destruct (N.ltb_spec (0xF0 + c / 262144) 0xF0); [lia|].
  destruct (N.ltb_spec (0xF0 + c / 262144) 0xF5); [|lia].
  rewrite !cont_n2b by lia.
  replace ((0xF0 + c / 262144 - 0xF0) * 262144 + (c / 4096) mod 64 * 4096
           + (c / 64) mod 64 * 64 + c mod 64) with c by lia.
  destruct (N.ltb_spec c 0x10000); [lia|]. destruct (N.leb_spec 0x110000 c); [lia|].
  cbn [orb]. now rewrite Hr.
Qed.

Lemma utf8_dec_enc t b : utf8_enc t = Some b -> utf8_dec b = Some t.
Proof.
  revert b; induction t as [|c t IH]; intros b; cbn [utf8_enc].
  - intros H; inversion H; reflexivity.
  - destruct (utf8_enc1 c) as [a|] eqn:Ea; [|discriminate].
    destruct (utf8_enc t) as [b'|]; [|discriminate].
    intros H; inversion H; subst. eapply utf8_dec_enc1; eauto.
Qed.

Lemma utf8_enc_nil b : utf8_enc [] = Some b -> b = [].
Proof. cbn. congruence. Qed.
Lemma utf8_enc_nonempty c t b : utf8_enc (c :: t) = Some b -> b <> [].
Proof.
  cbn [utf8_enc]. destruct (utf8_enc1 c) as [a|] eqn:E; [|discriminate].
  destruct (utf8_enc t); [|discriminate]. intros H; inversion H; subst.
  unfold utf8_enc1 in E.
  repeat match type of E with context [if ?x then _ else _] => destruct x end;
    inversion E; subst; cbn; discriminate.
Qed.

Lemma cont_inv b x : cont b = Some x -> x < 64 /\ n2b (0x80 + x) = b.
Proof.
  unfold cont. destruct (N.leb_spec 0x80 (b2n b)); [|discriminate].
  destruct (N.ltb_spec (b2n b) 0xC0); [|discriminate]. cbn [andb].
  intros E; inversion E. split; [lia|].
  replace (0x80 + (b2n b - 0x80)) with (b2n b) by lia. apply n2b_b2n.
Qed.

Lemma utf8_enc_dec : forall b t, utf8_dec b = Some t -> utf8_enc t = Some b.
Proof.
  assert (Hstep : forall n b t, (length b < n)%nat -> utf8_dec b = Some t -> utf8_enc t = Some b).
  { induction n as [|n IH]; intros b t Hlen; [lia|].
    destruct b as [|b0 t0]; [cbn; intros E; inversion E; reflexivity|].
    cbn [length] in Hlen. cbn [utf8_dec].
    pose proof (b2n_lt b0) as Hb0.
    destruct (N.ltb_spec (b2n b0) 0x80) as [H1|H1].
    { destruct (utf8_dec t0) as [t'|] eqn:E; [|discriminate]. cbn [option_map].
      intros E'; apply some_inj in E'; subst t. cbn [utf8_enc].
      rewrite (IH t0 t' ltac:(lia) E).
      unfold utf8_enc1. destruct (N.ltb_spec (b2n b0) 0x80); [|lia]. now rewrite n2b_b2n. }
    destruct (N.ltb_spec (b2n b0) 0xC2) as [H2|H2]; [discriminate|].
    destruct (N.ltb_spec (b2n b0) 0xE0) as [H3|H3].
    { destruct t0 as [|b1 t1]; [discriminate|]. destruct (cont b1) as [c1|] eqn:C1; [|discriminate].
      apply cont_inv in C1. destruct C1 as [C1 C1'].
      destruct (utf8_dec t1) as [t'|] eqn:E; [|discriminate]. cbn [option_map].
      intros E'; apply some_inj in E'; subst t. cbn [utf8_enc]. cbn [length] in Hlen.
      rewrite (IH t1 t' ltac:(lia) E).
      unfold utf8_enc1. set (c := (b2n b0 - 0xC0) * 64 + c1).
      destruct (N.ltb_spec c 0x80); [lia|]. destruct (N.ltb_spec c 0x800); [|lia].
      cbn [app]. replace (0xC0 + c / 64) with (b2n b0) by lia.
      replace (c mod 64) with c1 by lia. now rewrite n2b_b2n, C1'. }
    destruct (N.ltb_spec (b2n b0) 0xF0) as [H4|H4].
    { destruct t0 as [|b1 [|b2 t2]]; try discriminate.
      destruct (cont b1) as [c1|] eqn:C1; [|discriminate].
      destruct (cont b2) as [c2|] eqn:C2; [|discriminate].
      apply cont_inv in C1. destruct C1 as [C1 C1'].
      apply cont_inv in C2. destruct C2 as [C2 C2'].
      set (c := (b2n b0 - 0xE0) * 4096 + c1 * 64 + c2).
      destruct (N.ltb_spec c 0x800); [discriminate|]. cbn [orb].
      destruct (is_surrogate c) eqn:Hs; [discriminate|].
      destruct (utf8_dec t2) as [t'|] eqn:E; [|discriminate]. cbn [option_map].
      intros E'; apply some_inj in E'; subst t. cbn [utf8_enc]. cbn [length] in Hlen.
      rewrite (IH t2 t' ltac:(lia) E).
      unfold utf8_enc1. fold c.
      destruct (N.ltb_spec c 0x80); [lia|]. destruct (N.ltb_spec c 0x800); [lia|].
      rewrite Hs. destruct (N.ltb_spec c 0x10000); [|lia].
      cbn [app]. replace (0xE0 + c / 4096) with (b2n b0) by lia.
      replace ((c / 64) mod 64) with c1 by lia.
      replace (c mod 64) with c2 by lia. now rewrite n2b_b2n, C1', C2'. }
    destruct (N.ltb_spec (b2n b0) 0xF5) as [H5|H5]; [|discriminate].
    destruct t0 as [|b1 [|b2 [|b3 t3]]]; try discriminate.
    destruct (cont b1) as [c1|] eqn:C1; [|discriminate].
    destruct (cont b2) as [c2|] eqn:C2; [|discriminate].
    destruct (cont b3) as [c3|] eqn:C3; [|discriminate].
    apply cont_inv in C1. destruct C1 as [C1 C1'].
    apply cont_inv in C2. destruct C2 as [C2 C2'].
    apply cont_inv in C3. destruct C3 as [C3 C3'].
    set (c := (b2n b0 - 0xF0) * 262144 + c1 * 4096 + c2 * 64 + c3).
    destruct (N.ltb_spec c 0x10000); [discriminate|]. cbn [orb].
    destruct (N.leb_spec 0x110000 c); [discriminate|].
    destruct (utf8_dec t3) as [t'|] eqn:E; [|discriminate]. cbn [option_map].
    intros E'; apply some_inj in E'; subst t. cbn [utf8_enc]. cbn [length] in Hlen.
    rewrite (IH t3 t' ltac:(lia) E).
    unfold utf8_enc1. fold c.
    destruct (N.ltb_spec c 0x80); [lia|]. destruct (N.ltb_spec c 0x800); [lia|].
    assert (is_surrogate c = false) as ->.
    { unfold is_surrogate. destruct (N.leb_spec c 0xDFFF); [lia|]. now rewrite andb_false_r. }
    destruct (N.ltb_spec c 0x10000); [lia|]. destruct (N.ltb_spec c 0x110000); [|lia].
    cbn [app]. replace (0xF0 + c / 262144) with (b2n b0) by lia.
    replace ((c / 4096) mod 64) with c1 by lia.
    replace ((c / 64) mod 64) with c2 by lia.
    replace (c mod 64) with c3 by lia. now rewrite n2b_b2n, C1', C2', C3'. }
  intros b t. apply (Hstep (S (length b))). lia.
Qed.

Lemma encode_decode_utf8 t b : encode_utf8 t = Ok b -> decode_utf8 b = Ok t.
Proof.
  unfold encode_utf8, decode_utf8. destruct (utf8_enc t) eqn:E; [|discriminate].
  intros H; inversion H; subst. now rewrite (utf8_dec_enc _ _ E).
Qed.
Lemma decode_encode_utf8 t b : decode_utf8 b = Ok t -> encode_utf8 t = Ok b.
Proof.
  unfold encode_utf8, decode_utf8. destruct (utf8_dec b) eqn:E; [|discriminate].
  intros H; inversion H; subst. now rewrite (utf8_enc_dec _ _ E).
Qed.
