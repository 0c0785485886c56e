(** Decoding of file names and file headers. *)
From Verif Require Import Base BaseFacts Rar RarSpec ReadSpec RarFacts.

Lemma byte_hi b : has (b2n b) 0x80 = (128 <=? b2n b) /\ N.land (b2n b) 0x7F = b2n b mod 128.
Proof. destruct b; split; reflexivity. Qed.

Lemma put_run_ok std f k : forall pos,
  pos + N.of_nat k <= lenN std ->
  put_run std pos f k = Ok (map (fun b => f (b2n b)) (sub pos (N.of_nat k) std)).
Proof.
  induction k as [|k IH]; intros pos H; cbn [put_run].
  - unfold sub. now rewrite takeN_0.
  - unfold sub. destruct (dropN pos std) as [|b r] eqn:E.
    { assert (lenN (dropN pos std) = 0) by now rewrite E. rewrite lenN_dropN in H0. lia. }
    assert (Hr : dropN (pos + 1) std = r).
    { rewrite N.add_comm, <- dropN_dropN, E. cbn [dropN]. now rewrite dropN_0. }
    rewrite IH by lia. cbn [bind]. unfold sub. rewrite Hr.
    replace (N.of_nat (S k)) with (1 + N.of_nat k) by lia.
    rewrite takeN_add. change (takeN 1 (b :: r)) with (b :: takeN 0 r).
    change (dropN 1 (b :: r)) with (dropN 0 r). now rewrite takeN_0, dropN_0.
Qed.

(** What the loop does once the code of the next operation is known. *)
Definition uni_next (fuel : nat) (std enc1 : bytes) (hi flags flagbits pos : N) (t : N)
  : result (list N) :=
  match enc1 with
  | [] => Err IndexError
  | c :: enc2 =>
    if t =? 0 then
      do r <- uni_loop fuel std enc2 hi flags flagbits (pos + 1); Ok (b2n c :: r)
    else if t =? 1 then
      do r <- uni_loop fuel std enc2 hi flags flagbits (pos + 1);
      Ok (b2n c + 256 * hi :: r)
    else if t =? 2 then
      match enc2 with
      | [] => Err IndexError
      | h :: enc3 =>
        do r <- uni_loop fuel std enc3 hi flags flagbits (pos + 1);
        Ok (b2n c + 256 * b2n h :: r)
      end
    else
      let n := b2n c in
      if has n 0x80 then
        match enc2 with
        | [] => Err IndexError
        | corr :: enc3 =>
          let k := N.land n 0x7F + 2 in
          do run <- put_run std pos
                      (fun b => N.land (b + b2n corr) 0xFF + 256 * hi) (N.to_nat k);
          do r <- uni_loop fuel std enc3 hi flags flagbits (pos + k);
          Ok (run ++ r)
        end
      else
        let k := n + 2 in
        do run <- put_run std pos (fun b => b) (N.to_nat k);
        do r <- uni_loop fuel std enc2 hi flags flagbits (pos + k);
        Ok (run ++ r)
  end.

Lemma uni_next_op fuel std o rest hi flags fb pos t :
  t = nop_code o -> nop_ok std pos o ->
  uni_next fuel std (nop_bytes o ++ rest) (b2n hi) flags fb pos t =
  do r <- uni_loop fuel std rest (b2n hi) flags fb (pos + nop_len o);
  Ok (nop_units std hi pos o ++ r).
Proof.
  intros -> Hok. destruct o as [b|b|lo h|k|k corr]; try reflexivity.
  - destruct Hok as [Hk Hp]. cbn [nop_bytes app nop_code nop_len nop_units].
    unfold uni_next. change (3 =? 0) with false. change (3 =? 1) with false.
    change (3 =? 2) with false. cbv iota zeta.
    rewrite (proj1 (byte_hi _)), b2n_n2b_small by lia.
    destruct (N.leb_spec 128 (k - 2)); [lia|].
    replace (k - 2 + 2) with k by lia.
    rewrite put_run_ok by lia. cbn [bind]. now rewrite N2Nat.id.
  - destruct Hok as [Hk Hp]. cbn [nop_bytes app nop_code nop_len nop_units].
    unfold uni_next. change (3 =? 0) with false. change (3 =? 1) with false.
    change (3 =? 2) with false. cbv iota zeta.
    rewrite (proj1 (byte_hi _)), (proj2 (byte_hi _)), b2n_n2b_small by lia.
    destruct (N.leb_spec 128 (128 + (k - 2))); [|lia].
    replace ((128 + (k - 2)) mod 128 + 2) with k by lia.
    rewrite put_run_ok by lia. cbn [bind]. rewrite N2Nat.id.
    replace (map (fun b => N.land (b2n b + b2n corr) 0xFF + 256 * b2n hi) (sub pos k std))
      with (map (fun b => (b2n b + b2n corr) mod 256 + 256 * b2n hi) (sub pos k std)); [reflexivity|].
    apply map_ext. intros b. f_equal. change 0xFF with (N.ones 8). now rewrite N.land_ones.
Qed.

Lemma uni_load fuel std f rest hi fl0 pos :
  uni_loop (S fuel) std (f :: rest) hi fl0 0 pos =
  uni_next fuel std rest hi (b2n f) 6 pos (N.land (N.shiftr (b2n f) 6) 3).
Proof. reflexivity. Qed.

Lemma uni_more fuel std e0 enc hi flags fb pos :
  fb <> 0 ->
  uni_loop (S fuel) std (e0 :: enc) hi flags fb pos =
  uni_next fuel std (e0 :: enc) hi flags (fb - 2) pos (N.land (N.shiftr flags (fb - 2)) 3).
Proof. intros H. cbn [uni_loop]. destruct (N.eqb_spec fb 0); [lia|reflexivity]. Qed.

Lemma uni_more_op fuel std o rest hi flags fb pos :
  fb <> 0 -> N.land (N.shiftr flags (fb - 2)) 3 = nop_code o -> nop_ok std pos o ->
  uni_loop (S fuel) std (nop_bytes o ++ rest) (b2n hi) flags fb pos =
  do r <- uni_loop fuel std rest (b2n hi) flags (fb - 2) (pos + nop_len o);
  Ok (nop_units std hi pos o ++ r).
Proof.
  intros H Hc Hok. rewrite <- (uni_next_op _ _ _ _ _ _ _ _ _ (eq_sym (eq_sym Hc)) Hok).
  destruct o; cbn [nop_bytes app]; apply uni_more; exact H.
Qed.
Lemma uni_load_op fuel std f o rest hi fl0 pos :
  N.land (N.shiftr (b2n f) 6) 3 = nop_code o -> nop_ok std pos o ->
  uni_loop (S fuel) std (f :: nop_bytes o ++ rest) (b2n hi) fl0 0 pos =
  do r <- uni_loop fuel std rest (b2n hi) (b2n f) 6 (pos + nop_len o);
  Ok (nop_units std hi pos o ++ r).
Proof. intros Hc Hok. rewrite uni_load. now apply uni_next_op. Qed.

Lemma code_shift f :
  N.land (N.shiftr (b2n f) 6) 3 = code_at f 0 /\ N.land (N.shiftr (b2n f) 4) 3 = code_at f 1 /\
  N.land (N.shiftr (b2n f) 2) 3 = code_at f 2 /\ N.land (N.shiftr (b2n f) 0) 3 = code_at f 3.
Proof. destruct f; repeat split; reflexivity. Qed.

Lemma uni_end fuel std hi flags fb pos : uni_loop (S fuel) std [] hi flags fb pos = Ok [].
Proof. reflexivity. Qed.

Lemma uni_loop_ok enc ops (E : enc_groups enc ops) : forall std hi fuel fl0 pos,
  nops_ok std pos ops -> (length ops < fuel)%nat ->
  uni_loop fuel std enc (b2n hi) fl0 0 pos = Ok (nops_units std hi pos ops).
Proof.
  induction E as [|f a b c d rest ops Ca Cb Cc Cd _ IH|f a b c Ca Cb Cc|f a b Ca Cb|f a Ca];
    intros std hi fuel fl0 pos Hok Hf; cbn [nops_ok nops_units length] in *;
    destruct (code_shift f) as (S0 & S1 & S2 & S3) || idtac.
  - destruct fuel; [lia|reflexivity].
  - destruct Hok as (Oa & Ob & Oc & Od & Ho).
    destruct fuel as [|[|[|[|fuel]]]]; try lia.
    rewrite uni_load_op by (auto; congruence).
    rewrite uni_more_op; [|discriminate|exact (eq_trans S1 Cb)|assumption].
    rewrite uni_more_op; [|discriminate|exact (eq_trans S2 Cc)|assumption].
    rewrite uni_more_op; [|discriminate|exact (eq_trans S3 Cd)|assumption].
    change (6 - 2 - 2 - 2) with 0. rewrite IH by (auto; lia). cbn [bind].
    reflexivity.
  - destruct Hok as (Oa & Ob & Oc & _).
    destruct fuel as [|[|[|[|fuel]]]]; try lia.
    rewrite uni_load_op by (auto; congruence).
    rewrite uni_more_op; [|discriminate|exact (eq_trans S1 Cb)|assumption].
    rewrite <- (app_nil_r (nop_bytes c)).
    rewrite uni_more_op; [|discriminate|exact (eq_trans S2 Cc)|assumption].
    rewrite uni_end. reflexivity.
  - destruct Hok as (Oa & Ob & _).
    destruct fuel as [|[|[|fuel]]]; try lia.
    rewrite uni_load_op by (auto; congruence).
    rewrite <- (app_nil_r (nop_bytes b)).
    rewrite uni_more_op; [|discriminate|exact (eq_trans S1 Cb)|assumption].
    rewrite uni_end. reflexivity.
  - destruct Hok as (Oa & _). destruct fuel as [|[|fuel]]; try lia.
    rewrite <- (app_nil_r (nop_bytes a)).
    rewrite uni_load_op by (auto; congruence).
    rewrite uni_end. reflexivity.
Qed.

Lemma nop_bytes_pos o : (1 <= length (nop_bytes o))%nat.
Proof. destruct o; cbn; lia. Qed.
Lemma enc_groups_len enc ops : enc_groups enc ops -> (length ops <= length enc)%nat.
Proof.
  induction 1; cbn [length]; rewrite ?app_length;
    try pose proof (nop_bytes_pos a); try pose proof (nop_bytes_pos b);
    try pose proof (nop_bytes_pos c); try pose proof (nop_bytes_pos d); lia.
Qed.

Lemma unicode_decode_ok std hi enc ops :
  enc_groups enc ops -> nops_ok std 0 ops ->
  unicode_decode std (hi :: enc) = Ok (utf16_units (nops_units std hi 0 ops)).
Proof.
  intros E H. unfold unicode_decode.
  rewrite (uni_loop_ok _ _ E); [reflexivity|assumption|].
  pose proof (enc_groups_len _ _ E). lia.
Qed.

Lemma find_zero_app std r : ~ In x00 std -> find_zero (std ++ x00 :: r) = Some (lenN std).
Proof.
  unfold find_zero. induction std as [|b std IH]; intros H.
  - reflexivity.
  - cbn [app find_sub starts_with].
    assert (Byte.eqb x00 b = false) as ->.
    { destruct (Byte.eqb x00 b) eqn:E; [|reflexivity]. apply beqb_spec' in E. subst.
      exfalso. apply H. now left. }
    cbn [andb]. rewrite IH by (intros Hi; apply H; now right). cbn [option_map].
    rewrite lenN_cons. f_equal. lia.
Qed.

Lemma decode_name_ok flags raw t : name_spec flags raw t -> decode_name flags raw = Ok t.
Proof.
  unfold name_spec, decode_name. change F_UNICODE with 0x200.
  destruct (has flags 0x200); [|now intros ->].
  intros (std & hi & enc & ops & -> & Hz & Hg & Hok & ->).
  rewrite find_zero_app by assumption.
  rewrite takeN_app_exact by reflexivity.
  replace (std ++ x00 :: hi :: enc) with ((std ++ [x00]) ++ hi :: enc) by now rewrite <- app_assoc.
  rewrite dropN_app_exact by (rewrite lenN_app; reflexivity).
  now apply unicode_decode_ok.
Qed.

(** ** Extended time *)
Lemma xtime_loop data k : forall pos,
  pos + N.of_nat k <= lenN data ->
  (fix loop (cnt : nat) (pos : N) : result N :=
       match cnt with
       | O => Ok pos
       | S c => do _ <- unpack 1 data pos; loop c (pos + 1)
       end) k pos = Ok (pos + N.of_nat k).
Proof.
  induction k as [|k IH]; intros pos H.
  - f_equal. lia.
  - destruct (unpack_ok 1 data pos) as [v ->]; [cbn; lia|]. cbn [bind].
    rewrite IH by lia. f_equal. lia.
Qed.

Lemma parse_xtime_ok flag data pos dos :
  pos + xtime_len flag dos <= lenN data ->
  parse_xtime flag data pos dos = Ok (pos + xtime_len flag dos).
Proof.
  unfold parse_xtime, xtime_len. intros H. destruct (has flag 8); [|f_equal; lia].
  destruct dos.
  - cbn [bind]. rewrite xtime_loop by (rewrite N2Nat.id; lia). f_equal. rewrite N2Nat.id. lia.
  - destruct (unpack_ok 4 data pos) as [v ->]; [cbn; lia|]. cbn [bind].
    rewrite xtime_loop by (rewrite N2Nat.id; lia). f_equal. rewrite N2Nat.id. lia.
Qed.

Lemma parse_ext_time_ok pre ext post :
  ext_spec ext -> parse_ext_time (pre ++ ext ++ post) (lenN pre) = Ok (lenN pre + lenN ext).
Proof.
  intros (ef & d & Hef & -> & Hd). unfold parse_ext_time.
  rewrite !lenN_app, lenN_le. destruct (N.leb_spec (lenN pre + 2) (lenN pre + (N.of_nat 2 + lenN d + lenN post))); [|lia].
  rewrite <- app_assoc, unpack_app by (auto; now rewrite pow8_2). cbn [bind].
  unfold ext_len in Hd.
  set (data := pre ++ le 2 ef ++ d ++ post).
  assert (Hdata : lenN data = lenN pre + 2 + lenN d + lenN post).
  { unfold data. rewrite !lenN_app, lenN_le. lia. }
  rewrite parse_xtime_ok by lia. cbn [bind].
  rewrite parse_xtime_ok by lia. cbn [bind].
  rewrite parse_xtime_ok by lia. cbn [bind].
  rewrite parse_xtime_ok by lia. f_equal. lia.
Qed.

(** ** The file header *)
Ltac bound := first [rewrite pow8_4; lia | rewrite pow8_2; lia | rewrite pow8_1; lia | rewrite pow8_8; lia].
Ltac fld :=
  repeat (rewrite unpack_app_skip by (rewrite ?lenN_le; lia)); rewrite ?lenN_le;
  match goal with |- unpack _ _ ?o = _ => replace o with 0 by lia end;
  apply unpack_le0; bound.

Lemma parse_file_ok crc ty h packed extra post :
  fhead_ok h packed ->
  hdr_ok crc ty (h_flags h) (fbody h packed extra) ->
  parse_file (h_flags h) (hdr crc ty (h_flags h) (fbody h packed extra) ++ post) =
  Ok (file_info_of h packed, 7 + lenN (fbody h packed [])).
Proof.
  intros (Hos & Hcrc & Htime & Hver & Hm & Hat & Hraw & Hsz & Hn & Hsalt & Hext) Hok.
  set (raw := hdr crc ty (h_flags h) (fbody h packed extra) ++ post).
  assert (Hpk : packed mod 0x100000000 < 4294967296) by lia.
  assert (Hup : h_unpacked h mod 0x100000000 < 4294967296) by lia.
  assert (U : unpack 4 raw 7 = Ok (packed mod 0x100000000) /\ unpack 4 raw 11 = Ok (h_unpacked h mod 0x100000000) /\ unpack 1 raw 15 = Ok (h_os h) /\ unpack 4 raw 16 = Ok (h_fcrc h) /\ unpack 4 raw 20 = Ok (h_time h) /\ unpack 1 raw 24 = Ok (h_ver h) /\ unpack 1 raw 25 = Ok (h_method h) /\ unpack 2 raw 26 = Ok (lenN (h_raw h)) /\ unpack 4 raw 28 = Ok (h_attr h)).
  { unfold raw, hdr, fbody. rewrite <- !app_assoc. repeat split; fld. }
  destruct U as (U1 & U2 & U3 & U4 & U5 & U6 & U7 & U8 & U9).
  unfold parse_file. rewrite U1, U2, U3, U4, U5, U6, U7, U8, U9. cbn [bind].
  assert (Hl : (lenN raw <? 32) = false).
  { apply N.ltb_ge. unfold raw. rewrite lenN_app, lenN_hdr. unfold fbody.
    rewrite !lenN_app, !lenN_le. lia. }
  rewrite Hl. change F_LARGE with 0x100. change F_SALT with 0x400. change F_EXT_TIME with 0x1000.
  set (hi := if has (h_flags h) 0x100
    then le 4 (packed / 0x100000000) ++ le 4 (h_unpacked h / 0x100000000) else []).
  set (P := le 2 crc ++ le 1 ty ++ le 2 (h_flags h) ++ le 2 (7 + lenN (fbody h packed extra)) ++
     le 4 (packed mod 0x100000000) ++ le 4 (h_unpacked h mod 0x100000000) ++ le 1 (h_os h) ++
     le 4 (h_fcrc h) ++ le 4 (h_time h) ++ le 1 (h_ver h) ++ le 1 (h_method h) ++
     le 2 (lenN (h_raw h)) ++ le 4 (h_attr h)).
  assert (HP : lenN P = 32) by (unfold P; rewrite !lenN_app, !lenN_le; reflexivity).
  assert (Hr : raw = P ++ hi ++ h_raw h ++ h_salt h ++ h_ext h ++ extra ++ post).
  { unfold raw, P, hdr, fbody. fold hi. now rewrite <- !app_assoc. }
  assert (Hb : 7 + lenN (fbody h packed []) = 32 + lenN hi + lenN (h_raw h) + lenN (h_salt h) + lenN (h_ext h)).
  { unfold fbody. fold hi. rewrite !lenN_app, !lenN_le, lenN_nil. lia. }
  assert (Hhi : (if has (h_flags h) 0x100
       then (do a <- unpack 4 raw 32; do b <- unpack 4 raw 36; Ok (a, b, 40))
       else Ok (0, 0, 32)) = Ok (packed / 0x100000000, h_unpacked h / 0x100000000, 32 + lenN hi)).
  { destruct (has (h_flags h) 0x100) eqn:EL.
    - assert (unpack 4 raw 32 = Ok (packed / 0x100000000)) as ->.
      { rewrite Hr, unpack_app_skip by lia. rewrite HP. unfold hi. rewrite <- !app_assoc.
        apply unpack_le0. rewrite pow8_4. lia. }
      assert (unpack 4 raw 36 = Ok (h_unpacked h / 0x100000000)) as ->.
      { rewrite Hr, unpack_app_skip by lia. rewrite HP. unfold hi. rewrite <- !app_assoc.
        rewrite unpack_app_skip by (rewrite lenN_le; lia). rewrite lenN_le.
        apply unpack_le0. rewrite pow8_4. lia. }
      cbn [bind]. unfold hi. rewrite lenN_app, !lenN_le. reflexivity.
    - rewrite !N.div_small by lia. reflexivity. }
  rewrite Hhi. cbn [bind].
  assert (Hs : sub (32 + lenN hi) (lenN (h_raw h)) raw = h_raw h).
  { rewrite Hr, app_assoc. apply sub_app_exact; [rewrite lenN_app; lia|reflexivity]. }
  rewrite Hs, (decode_name_ok _ _ _ Hn). cbn [bind].
  replace (if has (h_flags h) 0x400 then 32 + lenN hi + lenN (h_raw h) + 8 else 32 + lenN hi + lenN (h_raw h))
    with (32 + lenN hi + lenN (h_raw h) + lenN (h_salt h))
    by (rewrite Hsalt; destruct (has (h_flags h) 0x400); lia).
  assert (He : (if has (h_flags h) 0x1000 then parse_ext_time raw (32 + lenN hi + lenN (h_raw h) + lenN (h_salt h))
                else Ok (32 + lenN hi + lenN (h_raw h) + lenN (h_salt h))) =
               Ok (7 + lenN (fbody h packed []))).
  { rewrite Hb. revert Hext. destruct (has (h_flags h) 0x1000); intros Hext.
    - rewrite Hr. replace (P ++ hi ++ h_raw h ++ h_salt h ++ h_ext h ++ extra ++ post)
        with ((P ++ hi ++ h_raw h ++ h_salt h) ++ h_ext h ++ extra ++ post) by now rewrite <- !app_assoc.
      replace (32 + lenN hi + lenN (h_raw h) + lenN (h_salt h)) with (lenN (P ++ hi ++ h_raw h ++ h_salt h))
        by (rewrite !lenN_app; lia).
      now apply parse_ext_time_ok.
    - rewrite Hext, lenN_nil. f_equal. lia. }
  rewrite He. cbn [bind]. do 3 f_equal; unfold file_info_of; f_equal;
    rewrite (N.add_comm _ (_ * _)), N.mul_comm; symmetry; apply N.div_mod'.
Qed.
