(** Lemmas about the block reader. *)
From Verif Require Import Base BaseFacts Rar RarSpec.

Lemma lenN_hdr crc ty fl body : lenN (hdr crc ty fl body) = 7 + lenN body.
Proof. unfold hdr. rewrite !lenN_app, !lenN_le. lia. Qed.

Lemma hdr_app crc ty fl a b post :
  7 + lenN (a ++ b) = 7 + lenN a + lenN b ->
  le 2 crc ++ le 1 ty ++ le 2 fl ++ le 2 (7 + lenN a + lenN b) ++ a ++ b ++ post
  = hdr crc ty fl (a ++ b) ++ post.
Proof. intros H. unfold hdr. rewrite H, <- !app_assoc. reflexivity. Qed.

Lemma pow8_2 : 2 ^ (8 * N.of_nat 2) = 65536. Proof. reflexivity. Qed.
Lemma pow8_1 : 2 ^ (8 * N.of_nat 1) = 256. Proof. reflexivity. Qed.
Lemma pow8_4 : 2 ^ (8 * N.of_nat 4) = 4294967296. Proof. reflexivity. Qed.
Lemma pow8_8 : 2 ^ (8 * N.of_nat 8) = 18446744073709551616. Proof. reflexivity. Qed.

(** Reading the fields of a header, with anything behind it. *)
Lemma hdr_fields crc ty fl body post :
  hdr_ok crc ty fl body ->
  unpack 2 (hdr crc ty fl body ++ post) 0 = Ok crc /\
  unpack 1 (hdr crc ty fl body ++ post) 2 = Ok ty /\
  unpack 2 (hdr crc ty fl body ++ post) 3 = Ok fl /\
  unpack 2 (hdr crc ty fl body ++ post) 5 = Ok (7 + lenN body).
Proof.
  intros (H1 & H2 & H3 & H4). unfold hdr. rewrite <- !app_assoc.
  repeat split.
  - apply unpack_le0. now rewrite pow8_2.
  - apply (unpack_app (le 2 crc)); [now rewrite lenN_le|now rewrite pow8_1].
  - rewrite (app_assoc (le 2 crc)).
    apply unpack_app; [now rewrite lenN_app, !lenN_le|now rewrite pow8_2].
  - rewrite (app_assoc (le 2 crc)), (app_assoc (le 2 crc ++ le 1 ty)).
    apply unpack_app; [now rewrite !lenN_app, !lenN_le|now rewrite pow8_2].
Qed.

Lemma hdr_fields0 crc ty fl body :
  hdr_ok crc ty fl body ->
  unpack 2 (hdr crc ty fl body) 0 = Ok crc /\
  unpack 1 (hdr crc ty fl body) 2 = Ok ty /\
  unpack 2 (hdr crc ty fl body) 3 = Ok fl /\
  unpack 2 (hdr crc ty fl body) 5 = Ok (7 + lenN body).
Proof. intros H. pose proof (hdr_fields crc ty fl body [] H). now rewrite app_nil_r in H0. Qed.

(** Unpacking inside the body. *)
Lemma unpack_hdr_body k crc ty fl body post o :
  unpack k (hdr crc ty fl body ++ post) (7 + o) = unpack k (body ++ post) o.
Proof.
  unfold hdr. rewrite <- !app_assoc.
  rewrite !unpack_app_skip by (rewrite !lenN_le; lia).
  f_equal. rewrite !lenN_le. lia.
Qed.
Lemma unpack_hdr_body0 k crc ty fl body o :
  unpack k (hdr crc ty fl body) (7 + o) = unpack k body o.
Proof. pose proof (unpack_hdr_body k crc ty fl body [] o). now rewrite !app_nil_r in H. Qed.
Lemma sub_hdr_body crc ty fl body post o n :
  sub (7 + o) n (hdr crc ty fl body ++ post) = sub o n (body ++ post).
Proof.
  unfold hdr. rewrite <- !app_assoc.
  rewrite !sub_app_skip by (rewrite !lenN_le; lia).
  f_equal. rewrite !lenN_le. lia.
Qed.

(** The first 7 bytes are again fields 0..7 of any longer buffer. *)
Lemma unpack_takeN k n l o :
  o + N.of_nat k <= n -> unpack k (takeN n l) o = unpack k l o.
Proof.
  intros H. unfold unpack.
  assert (sub o (N.of_nat k) (takeN n l) = sub o (N.of_nat k) l) as ->; [|reflexivity].
  unfold sub. rewrite dropN_takeN, takeN_takeN. f_equal. lia.
Qed.

Lemma sub_self {A} n (l post : list A) : n = lenN l -> sub 0 n (l ++ post) = l.
Proof. intros ->. rewrite sub_0. now apply takeN_app_exact. Qed.

Lemma sub_pre {A} (pre l post : list A) n :
  n = lenN l -> sub (lenN pre) n (pre ++ l ++ post) = l.
Proof. intros ->. now apply sub_app_exact. Qed.

(** What one call of the reader does with a header of more than 7 bytes at its position. *)
Definition after_header (m : mode) (pre h post : bytes) (ty flags : N)
  (ended : bool) (r_rr : option bool) : result (option (block * rst)) :=
  do add <- (if has flags F_LONG || (ty =? T_RarFile) || (ty =? T_RarNewSub)
             then unpack 4 h 7 else Ok 0);
  let is_rec := is_recovery_raw ty (lenN h) h in
  let p1 := lenN pre + lenN h in
  do rp <- (if mode_eqb m SRR then
              if ty =? T_SrrRarFile then Ok (Some (has flags F_RR_REMOVED), p1)
              else if is_rec then
                match r_rr with
                | None => Err AttributeError
                | Some true => Ok (r_rr, p1)
                | Some false => Ok (r_rr, p1 + add)
                end
              else Ok (r_rr, p1)
            else Ok (r_rr, p1));
  let '(rr, p2) := rp in
  let '(raw, p3) :=
    if ty =? T_SrrStored then (h, p2 + add)
    else if negb (ty =? T_RarFile) && negb is_rec && (0 <? add) then
      (h ++ takeN add post, p2 + lenN (takeN add post))
    else if mode_eqb m RAR && (0 <? add) then (h, p2 + add)
    else (h, p2) in
  do b <- make_block ty raw (lenN pre);
  let p4 :=
    match b_kind b with
    | KFile f => if has (b_flags b) F_LARGE && mode_eqb m RAR
                 then p1 + f_packed f else p3
    | _ => p3
    end in
  Ok (Some (b, mkRst p4 ended rr)).

Lemma read1_header m pre crc ty fl body post e rr :
  hdr_ok crc ty fl body -> body <> [] -> e && mode_eqb m RAR = false ->
  read1 m (pre ++ hdr crc ty fl body ++ post) (mkRst (lenN pre) e rr) =
  after_header m pre (hdr crc ty fl body) post ty fl (e || (ty =? T_RarMax)) rr.
Proof.
  intros Hok Hb He. unfold read1. cbn [r_pos r_end r_rr].
  set (h := hdr crc ty fl body) in *.
  assert (Hlh : lenN h = 7 + lenN body) by apply lenN_hdr.
  assert (Hbl : 0 < lenN body).
  { destruct body; [congruence|rewrite lenN_cons; lia]. }
  rewrite !lenN_app.
  destruct (N.eqb_spec (lenN pre) (lenN pre + (lenN h + lenN post))); [lia|].
  destruct (N.ltb_spec (lenN pre + (lenN h + lenN post)) (lenN pre + 7)); [lia|].
  assert (Hsub7 : sub (lenN pre) 7 (pre ++ h ++ post) = takeN 7 h).
  { unfold sub. rewrite dropN_app_exact by reflexivity. apply takeN_app_le. lia. }
  rewrite Hsub7.
  rewrite !unpack_takeN by (cbn; lia).
  destruct (hdr_fields0 _ _ _ _ Hok) as (_ & F2 & F3 & F4). fold h in F2, F3, F4.
  rewrite F2, F3, F4. cbn [bind]. rewrite He.
  destruct (N.ltb_spec (7 + lenN body) 7); [lia|]. cbn [orb].
  destruct (N.ltb_spec (lenN pre + (lenN h + lenN post)) (lenN pre + (7 + lenN body))); [lia|].
  destruct (N.eqb_spec (7 + lenN body) 7); [lia|].
  rewrite sub_pre by lia. rewrite <- Hlh.
  unfold after_header.
  destruct (if has fl F_LONG || (ty =? T_RarFile) || (ty =? T_RarNewSub)
            then unpack 4 h 7 else Ok 0) as [add|]; [|reflexivity]. cbn [bind].
  set (isr := is_recovery_raw ty (lenN h) h).
  assert (Hd : sub (lenN pre + lenN h) add (pre ++ h ++ post) = takeN add post).
  { unfold sub. rewrite app_assoc, dropN_app_exact; [reflexivity|now rewrite lenN_app]. }
  destruct (mode_eqb m SRR).
  - destruct (ty =? T_SrrRarFile); cbn [bind]; [now rewrite Hd|].
    destruct isr eqn:Er; cbn [negb]; [|cbn [bind]; now rewrite Hd].
    destruct rr as [[|]|]; cbn [bind]; [| |reflexivity];
      rewrite !andb_false_r, !andb_false_l; reflexivity.
  - cbn [bind]. now rewrite Hd.
Qed.

(** A 7 byte block. *)
Lemma read1_header7 m pre crc ty fl post e rr :
  hdr_ok crc ty fl [] -> e && mode_eqb m RAR = false ->
  read1 m (pre ++ hdr crc ty fl [] ++ post) (mkRst (lenN pre) e rr) =
  (do b <- (if ty =? T_SrrHeader then make_block T_SrrHeader (hdr crc ty fl []) (lenN pre)
            else make_block 0 (hdr crc ty fl []) (lenN pre));
   Ok (Some (b, mkRst (lenN pre + 7) (e || (ty =? T_RarMax)) rr))).
Proof.
  intros Hok He. unfold read1. cbn [r_pos r_end r_rr].
  set (h := hdr crc ty fl []) in *.
  assert (Hlh : lenN h = 7) by (unfold h; now rewrite lenN_hdr).
  rewrite !lenN_app.
  destruct (N.eqb_spec (lenN pre) (lenN pre + (lenN h + lenN post))); [lia|].
  destruct (N.ltb_spec (lenN pre + (lenN h + lenN post)) (lenN pre + 7)); [lia|].
  rewrite sub_pre by lia.
  destruct (hdr_fields0 _ _ _ _ Hok) as (_ & F2 & F3 & F4). fold h in F2, F3, F4.
  rewrite F2, F3, F4. cbn [bind]. rewrite He. rewrite lenN_nil.
  change (7 + 0) with 7. change (7 <? 7) with false. cbn [orb].
  destruct (N.ltb_spec (lenN pre + (lenN h + lenN post)) (lenN pre + 7)); [lia|].
  change (7 =? 7) with true. cbv iota. reflexivity.
Qed.

Lemma read1_end m data st : r_pos st = lenN data -> read1 m data st = Ok None.
Proof. intros H. unfold read1. now rewrite H, N.eqb_refl. Qed.

(** Padding after the end block in RAR mode. *)
Lemma read1_padding pre pad rr :
  pad <> [] -> lenN pad < 4294967296 ->
  read1 RAR (pre ++ pad) (mkRst (lenN pre) true rr) =
  (do b <- make_padding pad (lenN pre);
   Ok (Some (b, mkRst (lenN pre + lenN pad) true rr))).
Proof.
  intros Hp Hl. unfold read1. cbn [r_pos r_end r_rr mode_eqb andb].
  assert (0 < lenN pad) by (destruct pad; [congruence|rewrite lenN_cons; lia]).
  rewrite !lenN_app.
  destruct (N.eqb_spec (lenN pre) (lenN pre + lenN pad)); [lia|].
  destruct (N.ltb_spec (lenN pre + lenN pad) (lenN pre + 7)) as [Hs|Hs].
  - rewrite dropN_app_exact by reflexivity. unfold make_padding.
    destruct (padding_bytes pad); [|reflexivity]. cbn [bind].
    now replace (N.max (lenN pre) (lenN pre + lenN pad)) with (lenN pre + lenN pad) by lia.
  - assert (Hsub : sub (lenN pre) 7 (pre ++ pad) = takeN 7 pad).
    { unfold sub. now rewrite dropN_app_exact by reflexivity. }
    rewrite Hsub.
    assert (Hl7 : lenN (takeN 7 pad) = 7) by (rewrite lenN_takeN; lia).
    destruct (unpack_ok 1 (takeN 7 pad) 2) as [v1 ->]; [rewrite Hl7; cbn; lia|].
    destruct (unpack_ok 2 (takeN 7 pad) 3) as [v2 ->]; [rewrite Hl7; cbn; lia|].
    destruct (unpack_ok 2 (takeN 7 pad) 5) as [v3 ->]; [rewrite Hl7; cbn; lia|].
    cbn [bind].
    assert (takeN 7 pad ++ dropN (lenN pre + 7) (pre ++ pad) = pad) as ->.
    { rewrite dropN_app_ge by lia. replace (lenN pre + 7 - lenN pre) with 7 by lia.
      apply takeN_dropN. }
    reflexivity.
Qed.

Lemma padding_bytes_ok pad :
  lenN pad < 4294967296 ->
  padding_bytes pad = Ok (hdr 0x6C6C 0x6C F_LONG (le 4 (lenN pad)) ++ pad).
Proof.
  intros H. unfold padding_bytes.
  rewrite pack_ok by (now rewrite pow8_4). unfold write_header.
  rewrite !pack_ok by reflexivity. cbn [bind]. f_equal.
Qed.
