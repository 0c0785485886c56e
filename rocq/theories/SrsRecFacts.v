(** SrsRecFacts: lemmas about the records in SRS files. *)
From Verif Require Import Base BaseFacts Path PathFacts SrsRec SrsRecSpec.

Lemma unpack_at k a n c o : o = lenN a -> n < 2 ^ (8 * N.of_nat k) -> unpack k (a ++ le k n ++ c) o = Ok n.
Proof. exact (unpack_app a k n c o). Qed.
Ltac lens := rewrite ?lenN_app, ?lenN_le, ?lenN_cons; change (N.of_nat 2) with 2; change (N.of_nat 4) with 4; change (N.of_nat 8) with 8; try lia.

(** ** The file record *)
Lemma parse_file flags app name size crc a n extra :
  flags < 2 ^ 16 -> utf8_enc app = Some a -> lenN a < 2 ^ 16 -> utf8_enc name = Some n -> lenN n < 2 ^ 16 -> size < 2 ^ 64 -> crc < 2 ^ 32 ->
  parse_file_data (file_layout flags a n size crc ++ extra) =
  Ok {| fd_flags := flags; fd_appname := app; fd_sample_name := name; fd_size := size; fd_crc32 := crc |}.
Proof.
  intros Hf Ha La Hn Ln Hs Hc. unfold parse_file_data.
  assert (D1 : decode_utf8 a = Ok app) by (apply encode_decode_utf8; unfold encode_utf8; now rewrite Ha).
  assert (D2 : decode_utf8 n = Ok name) by (apply encode_decode_utf8; unfold encode_utf8; now rewrite Hn).
  remember (file_layout flags a n size crc ++ extra) as b eqn:E. destruct b as [|x b]; [discriminate|]. rewrite E. clear E x b.
  unfold file_layout. rewrite <- !app_assoc.
  rewrite (unpack_le0 2 flags) by exact Hf. cbn [bind].
  rewrite (unpack_at 2 (le 2 flags) (lenN a)) by (lens; exact La). cbn [bind].
  rewrite (app_assoc (le 2 flags)). rewrite (sub_app_exact (le 2 flags ++ le 2 (lenN a)) a) by (lens; reflexivity). rewrite D1. cbn [bind].
  rewrite (app_assoc _ a). rewrite (unpack_at 2 ((le 2 flags ++ le 2 (lenN a)) ++ a) (lenN n)) by (try (exact Ln); lens). cbn [bind].
  rewrite (app_assoc _ (le 2 (lenN n))). rewrite (sub_app_exact _ n) by lens. rewrite D2. cbn [bind].
  rewrite (app_assoc _ n). rewrite (unpack_at 8 _ size) by (try (exact Hs); lens). cbn [bind].
  rewrite (app_assoc _ (le 8 size)). rewrite (unpack_at 4 _ crc) by (try (exact Hc); lens). reflexivity.
Qed.
Lemma land32 n : N.land n 0xFFFFFFFF = n mod 2 ^ 32.
Proof. change 0xFFFFFFFF with (N.ones 32). apply N.land_ones. Qed.
Lemma base_name p n : after_slash p n -> basename p = n.
Proof. intros [H [->|(d & ->)]]; [now apply basename_nosep|now apply basename_sep]. Qed.
Lemma serialize_inv app d b : serialize_file app d = Ok b -> exists a n,
  utf8_enc app = Some a /\ utf8_enc (basename (fd_sample_name d)) = Some n /\ lenN a < 2 ^ 16 /\ lenN n < 2 ^ 16 /\
  fd_flags d < 2 ^ 16 /\ fd_size d < 2 ^ 64 /\ b = file_layout (fd_flags d) a n (fd_size d) (fd_crc32 d mod 2 ^ 32).
Proof.
  unfold serialize_file, encode_utf8. destruct (utf8_enc app) as [a|]; [|discriminate]. cbn [bind].
  destruct (utf8_enc (basename (fd_sample_name d))) as [n|]; [|discriminate]. cbn [bind].
  intros H. destruct (pack 2 (fd_flags d)) as [x1|] eqn:P1; [|discriminate]. destruct (pack 2 (lenN a)) as [x2|] eqn:P2; [|discriminate].
  destruct (pack 2 (lenN n)) as [x3|] eqn:P3; [|discriminate]. destruct (pack 8 (fd_size d)) as [x4|] eqn:P4; [|discriminate].
  destruct (pack 4 (N.land (fd_crc32 d) 0xFFFFFFFF)) as [x5|] eqn:P5; [|discriminate]. cbn [bind] in H.
  apply pack_inv in P1 as [? ->], P2 as [? ->], P3 as [? ->], P4 as [? ->], P5 as [? ->]. rewrite land32 in H.
  exists a, n. destruct (_ =? _); [|discriminate]. injection H as <-. repeat (split; [reflexivity || assumption|]). reflexivity.
Qed.
Theorem file_round app d b name extra : serialize_file app d = Ok b -> after_slash (fd_sample_name d) name ->
  parse_file_data (b ++ extra) = Ok {| fd_flags := fd_flags d; fd_appname := app; fd_sample_name := name;
                                       fd_size := fd_size d; fd_crc32 := fd_crc32 d mod 2 ^ 32 |}.
Proof.
  intros H Hn. apply serialize_inv in H as (a & n & Ha & En & La & Ln & Hf & Hs & ->). rewrite (base_name _ _ Hn) in En.
  apply parse_file; try assumption. apply N.mod_lt. discriminate.
Qed.
Theorem file_accepts app d name a n : utf8_enc app = Some a -> lenN a < 2 ^ 16 -> after_slash (fd_sample_name d) name ->
  utf8_enc name = Some n -> lenN n < 2 ^ 16 -> fd_flags d < 2 ^ 16 -> fd_size d < 2 ^ 64 ->
  serialize_file app d = Ok (file_layout (fd_flags d) a n (fd_size d) (fd_crc32 d mod 2 ^ 32)).
Proof.
  intros Ha La Hn En Ln Hf Hs. unfold serialize_file, encode_utf8. rewrite Ha, (base_name _ _ Hn), En. cbn [bind].
  rewrite land32, !pack_ok by (assumption || (apply N.mod_lt; discriminate)). cbn [bind].
  replace (18 + lenN a + lenN n =? _) with true; [reflexivity|]. symmetry. apply N.eqb_eq. lens.
Qed.

(** ** The track record *)
Lemma parse_layout flags number len off sig extra :
  let wide := has flags 8 in let big := has flags 4 in
  flags < 2 ^ 16 -> number < (if wide then 2 ^ 32 else 2 ^ 16) -> len < (if big then 2 ^ 64 else 2 ^ 32) -> off < 2 ^ 64 -> lenN sig < 2 ^ 16 ->
  parse_track (track_layout wide big flags number len off sig ++ extra) =
  Ok {| td_flags := flags; td_number := number; td_length := len; td_offset := off; td_signature := sig |}.
Proof.
  intros wide big Hf Hn Hl Ho Hs. unfold parse_track.
  remember (track_layout wide big flags number len off sig ++ extra) as b eqn:E. destruct b as [|x b]; [discriminate|]. rewrite E. clear E x b.
  unfold track_layout. rewrite <- !app_assoc. rewrite (unpack_le0 2 flags) by exact Hf. cbn [bind].
  change (has flags BIG_TACK_NUMBER) with wide. change (has flags BIG_FILE) with big.
  set (kw := if wide then 4%nat else 2%nat). set (kb := if big then 8%nat else 4%nat).
  set (e := if wide then 2 else 0). set (add := if big then 8 else 4).
  assert (Ekw : N.of_nat kw = 2 + e) by (unfold kw, e; destruct wide; reflexivity).
  assert (Ekb : N.of_nat kb = add) by (unfold kb, add; destruct big; reflexivity).
  replace (if wide then unpack 4 _ 2 else unpack 2 _ 2) with (unpack kw (le 2 flags ++ le kw number ++ le kb len ++ le 8 off ++ le 2 (lenN sig) ++ sig ++ extra) 2)
    by (unfold kw; destruct wide; reflexivity).
  assert (Hn' : number < 2 ^ (8 * N.of_nat kw)) by (unfold kw; destruct wide; exact Hn).
  assert (Hl' : len < 2 ^ (8 * N.of_nat kb)) by (unfold kb; destruct big; exact Hl).
  rewrite (unpack_at kw (le 2 flags) number) by (assumption || lens). cbn [bind].
  rewrite (app_assoc (le 2 flags)). rewrite (unpack_at kb _ len) by (assumption || lens). cbn [bind].
  rewrite (app_assoc _ (le kb len)). rewrite (unpack_at 8 _ off) by (assumption || lens). cbn [bind].
  rewrite (app_assoc _ (le 8 off)). rewrite (unpack_at 2 _ (lenN sig)) by (assumption || lens). cbn [bind].
  rewrite (app_assoc _ (le 2 (lenN sig))). rewrite (sub_app_exact _ sig) by lens. reflexivity.
Qed.
Lemma track_inv t b : serialize_track t = Ok b ->
  td_flags t < 2 ^ 16 /\ td_number t < 2 ^ 32 /\ td_length t < (if has (td_flags t) 4 then 2 ^ 64 else 2 ^ 32) /\ td_offset t < 2 ^ 64 /\
  lenN (td_signature t) < 2 ^ 16 /\
  b = track_layout (2 ^ 16 <=? td_number t) (has (td_flags t) 4) (td_flags t) (td_number t) (td_length t) (td_offset t) (td_signature t).
Proof.
  unfold serialize_track. change (has (td_flags t) BIG_FILE) with (has (td_flags t) 4). intros H.
  destruct (pack 2 (td_flags t)) as [x1|] eqn:P1; [|discriminate]. cbn [bind] in H.
  destruct (if 2 ^ 16 <=? td_number t then _ else _) as [x2|] eqn:P2; [|discriminate]. cbn [bind] in H.
  destruct (if has (td_flags t) 4 then pack 8 _ else _) as [x3|] eqn:P3; [|discriminate]. cbn [bind] in H.
  destruct (pack 8 (td_offset t)) as [x4|] eqn:P4; [|discriminate]. cbn [bind] in H.
  destruct (pack 2 (lenN (td_signature t))) as [x5|] eqn:P5; [|discriminate]. cbn [bind] in H.
  apply pack_inv in P1 as [? ->], P4 as [? ->], P5 as [? ->].
  assert (N2 : td_number t < 2 ^ 32 /\ x2 = le (if 2 ^ 16 <=? td_number t then 4 else 2) (td_number t)).
  { destruct (2 ^ 16 <=? td_number t); apply pack_inv in P2 as [A ->]; (split; [|reflexivity]); [exact A|]. change (8 * N.of_nat 2) with 16 in A.
    apply N.lt_trans with (2 ^ 16); [exact A|reflexivity]. }
  assert (N3 : td_length t < (if has (td_flags t) 4 then 2 ^ 64 else 2 ^ 32) /\ x3 = le (if has (td_flags t) 4 then 8 else 4) (td_length t)).
  { destruct (has (td_flags t) 4); apply pack_inv in P3 as [A ->]; (split; [exact A|reflexivity]). }
  destruct N2 as [? ->], N3 as [? ->]. destruct (_ =? _); [|discriminate]. injection H as <-. repeat (split; [assumption|]). reflexivity.
Qed.
Theorem track_round t b extra : serialize_track t = Ok b -> (has (td_flags t) 8 = true <-> 2 ^ 16 <= td_number t) ->
  parse_track (b ++ extra) = Ok t.
Proof.
  intros H W. apply track_inv in H as (Hf & Hn & Hl & Ho & Hs & ->). replace (2 ^ 16 <=? td_number t) with (has (td_flags t) 8).
  - rewrite parse_layout; try assumption; [now destruct t|]. destruct (has (td_flags t) 8) eqn:F; [exact Hn|].
    apply N.lt_nge. intros L. apply W in L. discriminate.
  - destruct (has (td_flags t) 8) eqn:F; symmetry; [apply N.leb_le; now apply W|]. apply N.leb_gt, N.lt_nge. intros L. apply W in L. discriminate.
Qed.
Theorem track_accepts t : td_flags t < 2 ^ 16 -> td_number t < 2 ^ 32 -> td_length t < (if has (td_flags t) 4 then 2 ^ 64 else 2 ^ 32) ->
  td_offset t < 2 ^ 64 -> lenN (td_signature t) < 2 ^ 16 -> exists b, serialize_track t = Ok b /\
  lenN b = 18 + (if has (td_flags t) 4 then 4 else 0) + (if 2 ^ 16 <=? td_number t then 2 else 0) + lenN (td_signature t).
Proof.
  intros Hf Hn Hl Ho Hs. unfold serialize_track. change (has (td_flags t) BIG_FILE) with (has (td_flags t) 4). rewrite pack_ok by exact Hf. cbn [bind].
  replace (if 2 ^ 16 <=? td_number t then pack 4 _ else _) with (Ok (le (if 2 ^ 16 <=? td_number t then 4 else 2) (td_number t))).
  2:{ destruct (2 ^ 16 <=? td_number t) eqn:E; rewrite pack_ok; try reflexivity; [exact Hn|]. apply N.leb_gt in E. exact E. }
  cbn [bind]. replace (if has (td_flags t) 4 then pack 8 _ else _) with (Ok (le (if has (td_flags t) 4 then 8 else 4) (td_length t))).
  2:{ destruct (has (td_flags t) 4); rewrite pack_ok; try reflexivity; exact Hl. }
  cbn [bind]. rewrite !pack_ok by assumption. cbn [bind].
  match goal with |- context [?a =? lenN ?b] => set (buf := b); assert (E : a = lenN buf) end.
  { unfold buf. lens. destruct (has (td_flags t) 4), (2 ^ 16 <=? td_number t); cbn [N.of_nat Pos.of_succ_nat Pos.succ]; lia. }
  rewrite <- E, N.eqb_refl. exists buf. split; [reflexivity|]. rewrite <- E. destruct (has (td_flags t) 4), (2 ^ 16 <=? td_number t); lia.
Qed.

(** ** ID3 sizes *)
Lemma land7 n : N.land n 0x7F = n mod 128.
Proof. change 0x7F with (N.ones 7). now rewrite N.land_ones. Qed.
Lemma encode_bytes n : map b2n (encode_id3_size n) = [n / 2 ^ 21 mod 128; n / 2 ^ 14 mod 128; n / 2 ^ 7 mod 128; n mod 128].
Proof.
  unfold encode_id3_size. cbn [map rev app]. rewrite !land7, !N.shiftr_div_pow2.
  assert (G : forall m, b2n (n2b (m mod 128)) = m mod 128) by (intros m; rewrite b2n_n2b_small; [reflexivity|]; pose proof (N.mod_lt m 128 ltac:(discriminate)); lia).
  rewrite !G. change (0 * 7) with 0. change (2 ^ 0) with 1. now rewrite N.div_1_r.
Qed.
Theorem id3_shape n : n < 2 ^ 28 -> base128 (encode_id3_size n) n.
Proof.
  intros H. do 4 eexists. split; [apply encode_bytes|]. repeat (split; [apply N.mod_lt; discriminate|]).
  change (2 ^ 21) with 2097152. change (2 ^ 14) with 16384. change (2 ^ 7) with 128. change (2 ^ 28) with 268435456 in H. lia.
Qed.
Theorem id3_decode l n extra : base128 l n -> decode_id3_size (l ++ extra) = Ok n.
Proof.
  intros (a & b & c & d & E & _ & _ & _ & _ & ->). destruct l as [|w [|x [|y [|z [|? l]]]]]; try discriminate. cbn [map] in E. injection E as <- <- <- <-.
  cbn [decode_id3_size app]. f_equal. change (2 ^ 21) with 2097152. change (2 ^ 14) with 16384. change (2 ^ 7) with 128. lia.
Qed.
Theorem id3_large n : exists m, m < 2 ^ 28 /\ encode_id3_size n = encode_id3_size m /\ m = n mod 2 ^ 28.
Proof.
  exists (n mod 2 ^ 28). split; [apply N.mod_lt; discriminate|]. split; [|reflexivity].
  assert (I : forall a b, map b2n a = map b2n b -> a = b).
  { induction a as [|x a IH]; intros [|y b] E; try discriminate; [reflexivity|]. cbn [map] in E. injection E as E1 E2. f_equal; [now apply b2n_inj|now apply IH]. }
  apply I. rewrite !encode_bytes. change (2 ^ 21) with 2097152. change (2 ^ 14) with 16384. change (2 ^ 7) with 128. change (2 ^ 28) with 268435456.
  f_equal; [lia|f_equal; [lia|f_equal; [lia|f_equal; lia]]].
Qed.
