(** ImageFacts: the size is found. *)
From Verif Require Import Base BaseFacts SrrFacts Image ImageSpec.
Local Open Scope Z_scope.

Lemma sof_frame t : is_sof t = true <-> frame t.
Proof. unfold is_sof, frame. rewrite !andb_true_iff, negb_true_iff, !orb_false_iff, !N.leb_le, !N.eqb_neq. intuition lia. Qed.
Lemma drop_more {A} (f a r : list A) pos : 0 <= pos -> dropN (Z.to_N pos) f = a ++ r -> dropN (Z.to_N (pos + Z.of_N (lenN a))) f = r.
Proof.
  intros P E. replace (Z.to_N (pos + Z.of_N (lenN a))) with (lenN a + Z.to_N pos)%N by lia.
  rewrite <- dropN_dropN, E. now apply dropN_app_exact.
Qed.
Lemma read_here f pos a r : dropN (Z.to_N pos) f = a ++ r -> read_at f pos (lenN a) = (a, pos + Z.of_N (lenN a)).
Proof. intros E. unfold read_at. cbv zeta. rewrite E, takeN_app_exact by reflexivity. reflexivity. Qed.
Lemma next_type_at f b rest : b2n b <> 0xff%N -> forall k fuel pos, (k < fuel)%nat -> 0 <= pos -> dropN (Z.to_N pos) f = repeat xff k ++ b :: rest ->
  next_type f fuel pos = Ok (b2n b, pos + Z.of_nat k + 1) /\ dropN (Z.to_N (pos + Z.of_nat k + 1)) f = rest.
Proof.
  intros B. induction k as [|k IH]; intros fuel pos F P E; (destruct fuel as [|fuel]; [lia|]); cbn [repeat app] in E; cbn [next_type].
  - pose proof (read_here f pos [b] rest E) as R. change (lenN [b]) with 1%N in R. rewrite R.
    destruct (b2n b =? 255)%N eqn:Q; [lia|]. change (Z.of_N 1) with 1. replace (pos + Z.of_nat 0 + 1) with (pos + 1) by lia.
    split; [reflexivity|]. exact (drop_more f [b] rest pos P E).
  - pose proof (read_here f pos [xff] (repeat xff k ++ b :: rest) E) as R. change (lenN [xff]) with 1%N in R. rewrite R.
    change (b2n xff =? 255)%N with true. cbv iota.
    destruct (IH fuel (pos + Z.of_N 1)) as [R1 R2]; [lia|lia|exact (drop_more f [xff] _ pos P E)|].
    replace (pos + Z.of_nat (S k) + 1) with (pos + Z.of_N 1 + Z.of_nat k + 1) by lia. now split.
Qed.
Lemma to_sof_step f fuel ftype pos size fill b sz rest : ~ frame ftype -> 0 <= pos + size -> b2n b <> 0xff%N -> lenN sz = 2%N ->
  dropN (Z.to_N (pos + size)) f = repN fill xff ++ [b] ++ sz ++ rest ->
  exists p, to_sof f (S fuel) ftype pos size = to_sof f fuel (b2n b) p (Z.of_N (unbe sz) - 2) /\ 0 <= p /\ dropN (Z.to_N p) f = rest.
Proof.
  intros T P B Z2 E. cbn [to_sof].
  replace (is_sof ftype) with false by (symmetry; apply not_true_iff_false; now rewrite sof_frame).
  replace (pos + size <? 0) with false by lia.
  assert (L : (N.to_nat fill < S (length f))%nat).
  { pose proof (f_equal lenN E) as G. rewrite lenN_dropN, !lenN_app, lenN_repN, lenN_length in G. lia. }
  destruct (next_type_at f b (sz ++ rest) B (N.to_nat fill) (S (length f)) (pos + size) L P E) as [R1 R2].
  rewrite R1. cbn [bind]. set (q := pos + size + Z.of_nat (N.to_nat fill) + 1) in *.
  pose proof (read_here f q sz rest R2) as R. rewrite Z2 in R. rewrite R, Z2. change (2 =? 2)%N with true. cbv iota.
  exists (q + Z.of_N 2). split; [reflexivity|]. split; [lia|]. rewrite <- Z2. apply drop_more; [lia|exact R2].
Qed.
Lemma to_sof_at f fill t sz rest : frame (b2n t) -> b2n t <> 0xff%N -> lenN sz = 2%N -> forall bs fuel ftype pos size, Forall block_ok bs -> ~ frame ftype -> 0 <= pos + size ->
  (length bs + 2 <= fuel)%nat -> dropN (Z.to_N (pos + size)) f = flat_map ser_block bs ++ repN fill xff ++ [t] ++ sz ++ rest ->
  exists p, to_sof f fuel ftype pos size = Ok p /\ 0 <= p /\ dropN (Z.to_N p) f = rest.
Proof.
  intros T B Z2. induction bs as [|b bs IH]; intros fuel ftype pos size A F P U E; cbn [length] in U.
  - destruct fuel as [|fuel]; [lia|]. destruct (to_sof_step f fuel ftype pos size fill t sz rest F P B Z2 E) as (p & R & Q & D).
    exists p. split; [|now split]. rewrite R. destruct fuel; [lia|]. cbn [to_sof]. now rewrite (proj2 (sof_frame _) T).
  - apply Forall_cons_iff in A. destruct A as [(O1 & O2 & O3 & O4) A]. destruct fuel as [|fuel]; [lia|].
    cbn [flat_map] in E. unfold ser_block at 1 in E. rewrite <- !app_assoc in E.
    destruct (to_sof_step f fuel ftype pos size _ _ _ _ F P O2 (lenN_be 2 _) E) as (p & R & Q & D). rewrite R.
    rewrite unbe_be_small by (change (2 ^ (8 * N.of_nat 2))%N with 0x10000%N; lia).
    replace (Z.of_N (lenN (b_data b) + 2) - 2) with (Z.of_N (lenN (b_data b))) by lia.
    apply IH; auto; [lia|lia|]. now apply drop_more.
Qed.

Lemma jpeg_reads bs fill t sz pr height width rest : Forall block_ok bs -> frame (b2n t) -> lenN sz = 2%N -> (height < 0x10000)%N -> (width < 0x10000)%N ->
  jpeg_size (jpeg bs fill t sz pr height width rest) = Ok (Z.of_N width, Z.of_N height).
Proof.
  intros A T Z2 H W. set (f := jpeg bs fill t sz pr height width rest). unfold jpeg_size.
  assert (L : (length bs <= length f)%nat).
  { unfold f, jpeg. rewrite !app_length. assert (length bs <= length (flat_map ser_block bs))%nat; [|lia].
    clear. induction bs as [|b bs IH]; [auto|]. cbn [flat_map length]. unfold ser_block at 1. rewrite !app_length. cbn [length]. lia. }
  destruct (to_sof_at f fill t sz ([pr] ++ be 2 height ++ be 2 width ++ rest)) with (bs := bs) (fuel := S (S (length f))) (ftype := 0%N) (pos := 0) (size := 2) as (p & R & Q & D); auto.
  - destruct T. lia.
  - unfold frame. lia.
  - lia.
  - lia.
  - unfold f, jpeg. change (Z.to_N (0 + 2)) with (lenN [xff; xd8]). now rewrite dropN_app_exact.
  - rewrite R. cbn [bind]. pose proof (drop_more f [pr] _ p Q D) as D1. change (Z.of_N (lenN [pr])) with 1 in D1.
    rewrite app_assoc in D1. pose proof (read_here f (p + 1) _ _ D1) as G.
    assert (K : lenN (be 2 height ++ be 2 width) = 4%N) by now rewrite lenN_app, !lenN_be.
    rewrite K in G. rewrite G, K. change (4 =? 4)%N with true. cbv iota. unfold at_.
    change (4 - 2)%N with 2%N. change (2 - 0)%N with 2%N.
    rewrite dropN_0, dropN_app_exact by now rewrite lenN_be. rewrite takeN_app_exact by now rewrite lenN_be.
    rewrite takeN_all by now rewrite lenN_be. rewrite !unbe_be_small by (change (2 ^ (8 * N.of_nat 2))%N with 0x10000%N; assumption). reflexivity.
Qed.

Lemma at_take b e n (l : bytes) : (e <= n)%N -> at_ b e (takeN n l) = at_ b e l.
Proof. intros H. unfold at_. rewrite dropN_takeN, takeN_takeN. f_equal. lia. Qed.
Lemma at_app (a k r : bytes) b e : b = lenN a -> (e = b + lenN k)%N -> at_ b e (a ++ k ++ r) = k.
Proof. intros -> ->. unfold at_. rewrite dropN_app_exact by reflexivity. apply takeN_app_exact. lia. Qed.
Lemma starts_take (p l : bytes) n : (lenN p <= n)%N -> starts_with Byte.eqb p (takeN n l) = starts_with Byte.eqb p l.
Proof.
  rewrite takeN_firstn, lenN_length. intros H. assert (K : (length p <= N.to_nat n)%nat) by lia. clear H. revert l K. generalize (N.to_nat n) as m. induction p as [|x p IH]; intros m l K; [reflexivity|].
  destruct m; cbn [length] in K; [lia|]. destruct l as [|y l]; [reflexivity|]. cbn. f_equal. apply IH. lia.
Qed.
Lemma what_take raw f : what raw (takeN 24 f) = what raw f.
Proof. unfold what. cbv zeta. rewrite !at_take by lia. rewrite starts_take by (vm_compute; discriminate). reflexivity. Qed.

Lemma known_what raw bs fill t sz pr height width rest : known_first bs -> what raw (jpeg bs fill t sz pr height width rest) = Jpeg.
Proof.
  intros (b & bs' & d & -> & F & K). unfold jpeg. cbn [flat_map]. unfold ser_block at 1. rewrite F. change (repN 1 xff) with [xff].
  set (r := flat_map ser_block bs' ++ repN fill xff ++ [t] ++ sz ++ [pr] ++ be 2 height ++ be 2 width ++ rest).
  assert (Q : forall k d', b_data b = k ++ d' -> forall e, (e = 6 + lenN k)%N -> at_ 6 e ([xff; xd8] ++ (([xff] ++ [b_type b] ++ be 2 (lenN (b_data b) + 2) ++ b_data b) ++ r)) = k).
  { intros k d' E e L. set (z := be 2 (lenN (b_data b) + 2)). rewrite E. 
    replace ([xff; xd8] ++ (([xff] ++ [b_type b] ++ z ++ k ++ d') ++ r)) with (([xff; xd8; xff; b_type b] ++ z) ++ k ++ d' ++ r) by (cbn [app]; now rewrite <- !app_assoc).
    apply at_app; [unfold z; now rewrite lenN_app, lenN_be|exact L]. }
  assert (Q4 : at_ 0 4 ([xff; xd8] ++ (([xff] ++ [b_type b] ++ be 2 (lenN (b_data b) + 2) ++ b_data b) ++ r)) = [xff; xd8; xff; b_type b]) by reflexivity.
  replace ([xff; xd8] ++ (([xff] ++ [b_type b] ++ be 2 (lenN (b_data b) + 2) ++ b_data b) ++ flat_map ser_block bs') ++ repN fill xff ++ [t] ++ sz ++ [pr] ++ be 2 height ++ be 2 width ++ rest)
    with ([xff; xd8] ++ (([xff] ++ [b_type b] ++ be 2 (lenN (b_data b) + 2) ++ b_data b) ++ r)) by (unfold r; now rewrite <- !app_assoc).
  set (h := [xff; xd8] ++ (([xff] ++ [b_type b] ++ be 2 (lenN (b_data b) + 2) ++ b_data b) ++ r)) in *.
  unfold what. cbv zeta.
  destruct K as [(k & I & E)|[[T E]|[T E]]].
  - destruct I as [<-|[<-|[]]]; rewrite (Q _ d E 10%N eq_refl); reflexivity.
  - destruct (_ || _); [reflexivity|]. destruct (_ && _); [reflexivity|].
    replace (starts_with Byte.eqb _ h) with false by reflexivity.
    replace (beqb (at_ 0 6 h) (bstr "GIF87a")) with false by reflexivity. replace (beqb (at_ 0 6 h) (bstr "GIF89a")) with false by reflexivity.
    cbn [orb]. now rewrite Q4, T, (Q _ d E 17%N eq_refl).
  - destruct (_ || _); [reflexivity|]. destruct (_ && _); [reflexivity|].
    replace (starts_with Byte.eqb _ h) with false by reflexivity.
    replace (beqb (at_ 0 6 h) (bstr "GIF87a")) with false by reflexivity. replace (beqb (at_ 0 6 h) (bstr "GIF89a")) with false by reflexivity.
    cbn [orb]. now rewrite Q4, T, (Q _ d E 11%N eq_refl).
Qed.
Lemma size_of_jpeg raw bs fill t sz pr height width rest : Forall block_ok bs -> frame (b2n t) -> lenN sz = 2%N -> (height < 0x10000)%N -> (width < 0x10000)%N ->
  (24 <= lenN (jpeg bs fill t sz pr height width rest))%N -> known_first bs ->
  get_image_size raw (jpeg bs fill t sz pr height width rest) = Some (Z.of_N width, Z.of_N height).
Proof.
  intros A T Z2 H W L K. unfold get_image_size. cbv zeta. rewrite lenN_takeN, N.min_l by exact L. change (24 =? 24)%N with true. cbv iota.
  rewrite what_take, known_what by exact K. now rewrite jpeg_reads.
Qed.
(** with a version of Python that knows them, files that begin with a table *)
Lemma size_of_table bs fill t sz pr height width rest b bs' : Forall block_ok bs -> frame (b2n t) -> lenN sz = 2%N -> (height < 0x10000)%N -> (width < 0x10000)%N ->
  (24 <= lenN (jpeg bs fill t sz pr height width rest))%N -> bs = b :: bs' -> b_fill b = 1%N -> b_type b = xdb ->
  get_image_size true (jpeg bs fill t sz pr height width rest) = Some (Z.of_N width, Z.of_N height).
Proof.
  intros A T Z2 H W L E F D. unfold get_image_size. cbv zeta. rewrite lenN_takeN, N.min_l by exact L. change (24 =? 24)%N with true. cbv iota.
  rewrite what_take. replace (what true _) with Jpeg; [now rewrite jpeg_reads|]. unfold what. cbv zeta. destruct (_ || _); [reflexivity|].
  subst bs. unfold jpeg. cbn [flat_map]. unfold ser_block at 1. rewrite F, D. reflexivity.
Qed.
Lemma size_of_png raw chunk width height rest : lenN chunk = 8%N -> (width < 0x80000000)%N -> (height < 0x80000000)%N ->
  get_image_size raw (png chunk width height rest) = Some (Z.of_N width, Z.of_N height).
Proof.
  intros C W H. set (f := png chunk width height rest).
  assert (L : (24 <= lenN f)%N). { unfold f, png. rewrite !lenN_app, !lenN_be, C. change (lenN [x89]) with 1%N. change (lenN (bstr "PNG")) with 3%N. change (lenN [x0d; x0a; x1a; x0a]) with 4%N. lia. }
  unfold get_image_size. cbv zeta. rewrite lenN_takeN, N.min_l by exact L. change (24 =? 24)%N with true. cbv iota. rewrite what_take.
  assert (X : exists a b c d e g h i, chunk = [a; b; c; d; e; g; h; i]).
  { rewrite lenN_length in C. do 9 (destruct chunk as [|? chunk]; cbn [length] in C; try lia). now repeat eexists. }
  destruct X as (a & b & c & d & e & g & h & i & ->).
  replace (what raw f) with Png by (unfold f, what; now destruct raw).
  rewrite !at_take by lia.
  replace (at_ 4 8 f) with [x0d; x0a; x1a; x0a] by reflexivity. change (signed (unbe [x0d; x0a; x1a; x0a]) =? 218765834) with true. cbv iota.
  replace (at_ 16 20 f) with (be 4 width). 2:{ symmetry. unfold f, png. rewrite !app_assoc. rewrite <- (app_assoc _ _ rest), <- app_assoc. apply at_app; [reflexivity|now rewrite lenN_be]. }
  replace (at_ 20 24 f) with (be 4 height). 2:{ symmetry. unfold f, png. rewrite !app_assoc. rewrite <- (app_assoc _ _ rest). apply at_app; [now rewrite lenN_app, lenN_be|now rewrite lenN_be]. }
  rewrite !unbe_be_small by (change (2 ^ (8 * N.of_nat 4))%N with 0x100000000%N; lia). unfold signed.
  now replace (width <? 2147483648)%N with true by lia; replace (height <? 2147483648)%N with true by lia.
Qed.
Lemma size_of_gif raw version width height rest : In version [bstr "87a"; bstr "89a"] -> (width < 0x10000)%N -> (height < 0x10000)%N -> (14 <= lenN rest)%N ->
  ~ (width = 17994 /\ height = 17993)%N -> ~ (width = 30789 /\ height = 26217)%N ->
  get_image_size raw (gif version width height rest) = Some (Z.of_N width, Z.of_N height).
Proof.
  intros V W H R N1 N2. set (f := gif version width height rest).
  assert (V3 : lenN version = 3%N) by (destruct V as [<-|[<-|[]]]; reflexivity).
  assert (L : (24 <= lenN f)%N). { unfold f, gif. rewrite !lenN_app, !lenN_le, V3. change (lenN (bstr "GIF")) with 3%N. lia. }
  unfold get_image_size. cbv zeta. rewrite lenN_takeN, N.min_l by exact L. change (24 =? 24)%N with true. cbv iota. rewrite what_take.
  assert (P1 : at_ 6 8 f = le 2 width). { unfold f, gif. rewrite app_assoc. apply at_app; [now rewrite lenN_app, V3|now rewrite lenN_le]. }
  assert (P2 : at_ 8 10 f = le 2 height). { unfold f, gif. rewrite !app_assoc, <- app_assoc. apply at_app; [now rewrite !lenN_app, V3, lenN_le|now rewrite lenN_le]. }
  assert (P3 : at_ 6 10 f = le 2 width ++ le 2 height). { unfold f, gif. rewrite app_assoc, (app_assoc (le 2 width)). apply at_app; [now rewrite lenN_app, V3|now rewrite lenN_app, !lenN_le]. }
  assert (S16 : forall n, (n < 0x10000)%N -> unle (le 2 n) = n) by (intros n Q; apply unle_le_small; exact Q).
  assert (K : forall a b, (a < 0x10000)%N -> (b < 0x10000)%N -> ~ (width = a /\ height = b)%N -> beqb (le 2 width ++ le 2 height) (le 2 a ++ le 2 b) = false).
  { intros a b A B N. apply not_true_iff_false. intros E. apply beqb_eq in E. apply N.
    pose proof (f_equal (takeN 2) E) as E1. pose proof (f_equal (dropN 2) E) as E2.
    rewrite !takeN_app_exact in E1 by now rewrite lenN_le. rewrite !dropN_app_exact in E2 by now rewrite lenN_le.
    apply (f_equal unle) in E1. apply (f_equal unle) in E2. rewrite !S16 in E1, E2 by assumption. now split. }
  assert (J : what raw f = Gif).
  { unfold what. cbv zeta. rewrite P3. change (bstr "JFIF") with (le 2 17994 ++ le 2 17993). change (bstr "Exif") with (le 2 30789 ++ le 2 26217).
    rewrite !K by (assumption || lia). cbn [orb]. unfold f, gif. destruct V as [<-|[<-|[]]]; now destruct raw. }
  rewrite J, !at_take, P1, P2, !S16 by (assumption || lia). reflexivity.
Qed.

(** the search ends *)
Lemma read_some f pos n d p : 0 <= pos -> read_at f pos n = (d, p) -> lenN d = n -> (0 < n)%N -> p = pos + Z.of_N n /\ p <= Z.of_nat (length f).
Proof.
  unfold read_at. cbv zeta. intros P E L Z. injection E as E1 E2. subst d. rewrite L in E2. split; [lia|].
  rewrite lenN_takeN, lenN_dropN, lenN_length in L. lia.
Qed.
Lemma next_type_ends f : forall fuel pos, 0 <= pos -> (0 < fuel)%nat -> Z.of_nat (length f) < pos + Z.of_nat fuel ->
  match next_type f fuel pos with Ok (_, p) => pos < p | Err e => e <> OutOfFuel end.
Proof.
  induction fuel as [|fuel IH]; intros pos P Z L; [lia|]; cbn [next_type].
  destruct (read_at f pos 1) as [d p] eqn:R. destruct d as [|b [|? ?]]; try discriminate.
  destruct (read_some f pos 1 [b] p P R eq_refl ltac:(lia)) as [Q1 Q2].
  destruct (b2n b =? 255)%N; [|lia].
  assert (K := IH p ltac:(lia) ltac:(lia) ltac:(lia)). destruct (next_type f fuel p) as [[? ?]|?]; [lia|exact K].
Qed.
Lemma to_sof_ends f : forall fuel ftype pos size, (0 < fuel)%nat -> Z.of_nat (length f) < pos + size + Z.of_nat fuel -> to_sof f fuel ftype pos size <> Err OutOfFuel.
Proof.
  induction fuel as [|fuel IH]; intros ftype pos size Z L; [lia|]; cbn [to_sof].
  destruct (is_sof ftype); [discriminate|]. destruct (pos + size <? 0) eqn:P; [discriminate|].
  pose proof (next_type_ends f (S (length f)) (pos + size) ltac:(lia) ltac:(lia) ltac:(lia)) as K.
  destruct (next_type f (S (length f)) (pos + size)) as [[t q]|e]; cbn [bind]; [|now intros [= ->]].
  destruct (read_at f q 2) as [d p] eqn:R. destruct (lenN d =? 2)%N eqn:D; [|discriminate]. apply N.eqb_eq in D.
  destruct (read_some f q 2 d p ltac:(lia) R D ltac:(lia)) as [Q1 Q2]. apply IH; lia.
Qed.
Lemma jpeg_ends f : jpeg_size f <> Err OutOfFuel.
Proof.
  unfold jpeg_size. pose proof (to_sof_ends f (S (S (length f))) 0 0 2 ltac:(lia) ltac:(lia)) as K.
  destruct (to_sof f (S (S (length f))) 0 0 2) as [p|e]; cbn [bind]; [|now intros [= ->]].
  destruct (read_at f (p + 1) 4) as [d q]. now destruct (lenN d =? 4)%N.
Qed.

(** covers *)
Lemma cover_size raw f w h : get_image_size raw f = Some (w, h) -> (fixed_resolution_cover raw f = true <-> w = 630 /\ h = 1200).
Proof. intros E. unfold fixed_resolution_cover. rewrite E, andb_true_iff, !Z.eqb_eq. reflexivity. Qed.
Lemma cover_jpeg raw bs fill t sz pr height width rest : Forall block_ok bs -> frame (b2n t) -> lenN sz = 2%N -> (height < 0x10000)%N -> (width < 0x10000)%N ->
  (24 <= lenN (jpeg bs fill t sz pr height width rest))%N -> known_first bs ->
  (fixed_resolution_cover raw (jpeg bs fill t sz pr height width rest) = true <-> width = 630%N /\ height = 1200%N).
Proof. intros A T Z2 H W L K. rewrite (cover_size _ _ _ _ (size_of_jpeg raw bs fill t sz pr height width rest A T Z2 H W L K)). lia. Qed.
