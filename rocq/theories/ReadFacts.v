(** The reader on serialised blocks: one block at a time, then whole files. *)
From Verif Require Import Base BaseFacts Rar RarSpec ReadSpec RarFacts NameFacts.

Ltac ceq :=
  repeat match goal with
  | |- context [?a =? ?b] =>
    let v := eval vm_compute in (a =? b) in
    match v with
    | true => change (a =? b) with true
    | false => change (a =? b) with false
    end
  end.

Lemma ser_sitem_hdr i : ser_sitem i = s_hdr i ++ s_data i.
Proof. reflexivity. Qed.
Lemma lenN_s_hdr i : lenN (s_hdr i) = 7 + lenN (s_body i).
Proof. apply lenN_hdr. Qed.
Lemma lenN_ser_sitem i : lenN (ser_sitem i) = 7 + lenN (s_body i) + lenN (s_data i).
Proof. rewrite ser_sitem_hdr, lenN_app, lenN_s_hdr. lia. Qed.

(** ** Names *)
Lemma decode_utf8_utf8 t : valid_text t -> decode_utf8 (utf8 t) = Ok t.
Proof.
  unfold valid_text, utf8, decode_utf8. destruct (utf8_enc t) as [b|] eqn:E; [|congruence].
  intros _. now rewrite (utf8_dec_enc _ _ E).
Qed.
Lemma encode_utf8_utf8 t : valid_text t -> encode_utf8 t = Ok (utf8 t).
Proof. unfold valid_text, utf8, encode_utf8. destruct (utf8_enc t); [reflexivity|congruence]. Qed.
Lemma encode_utf8_inv t b : encode_utf8 t = Ok b -> valid_text t /\ b = utf8 t.
Proof.
  unfold encode_utf8, valid_text, utf8. destruct (utf8_enc t); [|discriminate].
  intros H. apply ok_inj in H. split; congruence.
Qed.

Lemma lenN_name_field t : lenN (name_field t) = 2 + lenN (utf8 t).
Proof. unfold name_field. rewrite lenN_app, lenN_le. reflexivity. Qed.

Lemma unpack_name a n c p :
  p = lenN a -> name_ok n -> unpack_file_name (a ++ name_field n ++ c) p = Ok n.
Proof.
  intros -> [Hv Hl]. unfold unpack_file_name, name_field.
  rewrite <- app_assoc, unpack_app by (auto; bound). cbn [bind].
  rewrite (app_assoc a), sub_app_exact; [now apply decode_utf8_utf8| |reflexivity].
  rewrite lenN_app, lenN_le. reflexivity.
Qed.

(** ** make_block on each kind *)
Lemma unpack_body k crc ty fl body post o p :
  p = 7 + o -> unpack k (hdr crc ty fl body ++ post) p = unpack k (body ++ post) o.
Proof. intros ->. apply unpack_hdr_body. Qed.
Lemma hdr_shift a crc ty fl body post :
  hdr crc ty fl (a ++ body) ++ post =
  (le 2 crc ++ le 1 ty ++ le 2 fl ++ le 2 (7 + lenN (a ++ body)) ++ a) ++ body ++ post.
Proof. unfold hdr. now rewrite <- !app_assoc. Qed.

Lemma unpack_name_hdr crc ty fl a n e post p :
  p = 7 + lenN a -> name_ok n ->
  unpack_file_name (hdr crc ty fl (a ++ name_field n ++ e) ++ post) p = Ok n.
Proof.
  intros -> Hn. rewrite hdr_shift, <- (app_assoc (name_field n)). apply unpack_name; [|assumption].
  rewrite !lenN_app, !lenN_le. lia.
Qed.

Lemma make_app pos c fl name extra :
  sitem_ok (SApp c fl name extra) ->
  make_block 0x69 (s_raw (SApp c fl name extra)) pos = Ok (sblk pos (SApp c fl name extra)).
Proof.
  intros [Hok [HL Hn]]. unfold sblk, s_raw, ser_sitem, s_data.
  destruct (hdr_fields _ _ _ _ [] Hok) as (F1 & F2 & F3 & F4).
  unfold make_block. rewrite F1, F2, F3, F4. cbn [bind]. ceq. cbn [andb]. cbv iota.
  change F_LONG with 0x8000. change F_APPNAME with 1.
  cbn [s_flags] in *. rewrite HL. cbn [bind]. cbn [s_body s_kind s_add s_crcv s_ty] in *.
  destruct (has fl 1).
  - destruct Hn as [Hv Hl].
    rewrite (unpack_body _ _ _ _ _ _ 0) by reflexivity.
    unfold name_field. rewrite <- !app_assoc, unpack_le0 by bound. cbn [bind].
    replace 9 with (7 + 2) by reflexivity. rewrite sub_hdr_body, <- !app_assoc.
    rewrite sub_app_exact by (rewrite ?lenN_le; reflexivity).
    rewrite decode_utf8_utf8 by assumption. reflexivity.
  - now subst.
Qed.

Lemma make_stored pos c fl name data extra :
  sitem_ok (SStored c fl name data extra) -> pos <> 0 ->
  make_block 0x6A (s_raw (SStored c fl name data extra)) pos
  = Ok (sblk pos (SStored c fl name data extra)).
Proof.
  intros [Hok [HL [Hn Hd]]] Hp. unfold sblk, s_raw, s_hdr. set (i := SStored c fl name data extra) in *.
  destruct (hdr_fields0 _ _ _ _ Hok) as (F1 & F2 & F3 & F4).
  unfold make_block. rewrite F1, F2, F3, F4. cbn [bind]. ceq.
  destruct (N.eqb_spec pos 0); [lia|]. cbn [andb]. cbv iota.
  change F_LONG with 0x8000. unfold i in *. cbn [s_flags s_crcv s_ty s_body s_kind s_add] in *. rewrite HL.
  assert (unpack 4 (hdr c 0x6A fl (le 4 (lenN data) ++ name_field name ++ extra)) 7 = Ok (lenN data)) as ->.
  { change 7 with (7 + 0). rewrite unpack_hdr_body0. apply unpack_le0. bound. }
  cbn [bind].
  pose proof (unpack_name_hdr c 0x6A fl (le 4 (lenN data)) name extra [] 11) as Hu.
  rewrite app_nil_r in Hu. rewrite Hu; [reflexivity| |assumption].
  rewrite lenN_le. reflexivity.
Qed.

Lemma make_rar pos c fl name extra :
  sitem_ok (SRar c fl name extra) ->
  make_block 0x71 (s_raw (SRar c fl name extra)) pos = Ok (sblk pos (SRar c fl name extra)).
Proof.
  intros [Hok [HL Hn]]. unfold sblk, s_raw, ser_sitem, s_data.
  destruct (hdr_fields _ _ _ _ [] Hok) as (F1 & F2 & F3 & F4).
  unfold make_block. rewrite F1, F2, F3, F4. cbn [bind]. ceq. cbn [andb]. cbv iota.
  change F_LONG with 0x8000.
  cbn [s_flags] in *. rewrite HL. cbn [bind]. cbn [s_body s_kind s_add s_crcv s_ty] in *.
  pose proof (unpack_name_hdr c 0x71 fl [] name extra [] 7) as Hu.
  cbn [app] in Hu. rewrite Hu; [reflexivity|reflexivity|assumption].
Qed.

Lemma make_oso pos c fl size hash name extra :
  sitem_ok (SOso c fl size hash name extra) ->
  make_block 0x6B (s_raw (SOso c fl size hash name extra)) pos
  = Ok (sblk pos (SOso c fl size hash name extra)).
Proof.
  intros [Hok [HL [Hn [Hs Hh]]]]. unfold sblk, s_raw, ser_sitem, s_data.
  destruct (hdr_fields _ _ _ _ [] Hok) as (F1 & F2 & F3 & F4).
  unfold make_block. rewrite F1, F2, F3, F4. cbn [bind]. ceq. cbn [andb]. cbv iota.
  change F_LONG with 0x8000.
  cbn [s_flags] in *. rewrite HL. cbn [bind]. cbn [s_body s_kind s_add s_crcv s_ty] in *.
  rewrite (unpack_body _ _ _ _ _ _ 0), (unpack_body _ _ _ _ _ _ 8) by reflexivity.
  assert (E1 : unpack 8 ((le 8 size ++ le 8 hash ++ name_field name ++ extra) ++ []) 0 = Ok size)
    by (rewrite <- !app_assoc; fld).
  assert (E2 : unpack 8 ((le 8 size ++ le 8 hash ++ name_field name ++ extra) ++ []) 8 = Ok hash)
    by (rewrite <- !app_assoc; fld).
  rewrite E1, E2. cbn [bind].
  pose proof (unpack_name_hdr c 0x6B fl (le 8 size ++ le 8 hash) name extra [] 23) as Hu.
  rewrite <- !app_assoc in Hu. rewrite Hu; [reflexivity| |assumption].
  rewrite lenN_app, !lenN_le. reflexivity.
Qed.

Lemma make_pad pos c fl data extra :
  sitem_ok (SPad c fl data extra) ->
  make_block 0x6C (s_raw (SPad c fl data extra)) pos = Ok (sblk pos (SPad c fl data extra)).
Proof.
  intros [Hok [HL Hd]]. unfold sblk, s_raw, ser_sitem, s_data.
  destruct (hdr_fields _ _ _ _ data Hok) as (F1 & F2 & F3 & F4).
  unfold make_block. rewrite F1, F2, F3, F4. cbn [bind]. ceq. cbn [andb]. cbv iota.
  change F_LONG with 0x8000.
  cbn [s_flags] in *. rewrite HL. cbn [bind]. cbn [s_body s_kind s_add s_crcv s_ty] in *.
  rewrite (unpack_body _ _ _ _ _ _ 0) by reflexivity.
  assert (E1 : unpack 4 ((le 4 (lenN data) ++ extra) ++ data) 0 = Ok (lenN data))
    by (rewrite <- !app_assoc; fld).
  rewrite E1. reflexivity.
Qed.

(** Blocks of a volume. *)
Lemma fbody_first h packed extra post :
  unpack 4 (fbody h packed extra ++ post) 0 = Ok (packed mod 0x100000000).
Proof. unfold fbody. rewrite <- !app_assoc. apply unpack_le0. bound. Qed.


Lemma make_file pos h p :
  head_ok (HFile h p) ->
  make_block 0x74 (ser_head (HFile h p)) pos = Ok (hblk pos (HFile h p)).
Proof.
  intros [Hok Hf]. unfold hblk, sblk, s_raw, ser_sitem, ser_head, s_data.
  set (hd := HFile h p) in *.
  destruct (hdr_fields _ _ _ _ (head_data hd) Hok) as (F1 & F2 & F3 & F4).
  unfold make_block. rewrite F1, F2, F3, F4. cbn [bind]. ceq. cbn [andb]. cbv iota.
  change F_LONG with 0x8000.
  unfold hd in *. cbn [head_crc head_ty head_flags head_body head_data head_extra] in *.
  rewrite parse_file_ok by assumption.
  assert (Ha : exists a, (if has (h_flags h) 0x8000 then
     unpack 4 (hdr (h_crc h) 0x74 (h_flags h) (fbody h p (h_extra h)) ++ []) 7 else Ok 0) = Ok a).
  { rewrite (unpack_body _ _ _ _ _ _ 0), fbody_first by reflexivity.
    destruct (has (h_flags h) 0x8000); eauto. }
  destruct Ha as [a ->]. reflexivity.
Qed.

Lemma make_sub pos h d :
  head_ok (HSub h d) ->
  make_block 0x7A (ser_head (HSub h d)) pos = Ok (hblk pos (HSub h d)).
Proof.
  intros [Hok [Hf [HL [Hr Ht]]]]. unfold hblk, sblk, s_raw, ser_sitem, ser_head, s_data.
  set (hd := HSub h d) in *.
  destruct (hdr_fields _ _ _ _ (head_data hd) Hok) as (F1 & F2 & F3 & F4).
  unfold make_block. rewrite F1, F2, F3, F4. cbn [bind]. ceq. cbn [andb]. cbv iota.
  change F_LONG with 0x8000.
  unfold hd in *. cbn [head_crc head_ty head_flags head_body head_data head_extra] in *.
  rewrite parse_file_ok by assumption.
  assert (Ha : exists a, (if has (h_flags h) 0x8000 then
     unpack 4 (hdr (h_crc h) 0x7A (h_flags h) (fbody h (lenN d) (h_extra h)) ++ d) 7 else Ok 0) = Ok a).
  { rewrite (unpack_body _ _ _ _ _ _ 0), fbody_first by reflexivity.
    destruct (has (h_flags h) 0x8000); eauto. }
  destruct Ha as [a ->]. cbn [bind]. cbn [f_name file_info_of].
  replace (teqb (h_text h) (str "RR")) with false; [reflexivity|].
  symmetry. apply teqb_neq. exact Ht.
Qed.

Lemma fbody_extra h packed extra : fbody h packed extra = fbody h packed [] ++ extra.
Proof. unfold fbody. rewrite <- !app_assoc. reflexivity. Qed.

Lemma make_recov pos h mark rs ds p :
  head_ok (HRecov h mark rs ds p) ->
  make_block 0x7A (ser_head (HRecov h mark rs ds p)) pos = Ok (hblk pos (HRecov h mark rs ds p)).
Proof.
  intros [Hok [Hf [Hr [Hm [HL [HU [Hrs Hds]]]]]]].
  unfold hblk, sblk, s_raw, ser_sitem, ser_head, s_data.
  set (hd := HRecov h mark rs ds p) in *.
  destruct (hdr_fields _ _ _ _ (head_data hd) Hok) as (F1 & F2 & F3 & F4).
  unfold make_block. rewrite F1, F2, F3, F4. cbn [bind]. ceq. cbn [andb]. cbv iota.
  change F_LONG with 0x8000.
  unfold hd in *. cbn [head_crc head_ty head_flags head_body head_data] in *.
  rewrite parse_file_ok by assumption.
  set (hd' := HRecov h mark rs ds p) in *.
  assert (Ha : exists a, (if has (h_flags h) 0x8000 then
     unpack 4 (hdr (h_crc h) 0x7A (h_flags h) (fbody h p (head_extra hd')) ++ []) 7 else Ok 0) = Ok a).
  { rewrite (unpack_body _ _ _ _ _ _ 0), fbody_first by reflexivity.
    destruct (has (h_flags h) 0x8000); eauto. }
  destruct Ha as [a ->]. cbn [bind]. cbn [f_name file_info_of].
  assert (Ht : h_text h = RR_TEXT).
  { destruct Hf as (_ & _ & _ & _ & _ & _ & _ & _ & Hn & _). unfold name_spec in Hn.
    rewrite HU, Hr in Hn. rewrite Hn. reflexivity. }
  set (R := hdr (h_crc h) 0x7A (h_flags h) (fbody h p (head_extra hd')) ++ []).
  assert (E : unpack 4 R (7 + lenN (fbody h p []) + 8) = Ok rs /\
              unpack 8 R (7 + lenN (fbody h p []) + 12) = Ok ds).
  { unfold R.
    replace (7 + lenN (fbody h p []) + 8) with (7 + (lenN (fbody h p []) + 8)) by lia.
    replace (7 + lenN (fbody h p []) + 12) with (7 + (lenN (fbody h p []) + 12)) by lia.
    rewrite !unpack_hdr_body, (fbody_extra h p (head_extra hd')).
    unfold hd', head_extra. rewrite <- !app_assoc.
    rewrite !unpack_app_skip with (a := fbody h p []) by lia.
    rewrite !unpack_app_skip with (a := mark) by lia.
    replace (lenN (fbody h p []) + 8 - lenN (fbody h p []) - lenN mark) with 0 by lia.
    replace (lenN (fbody h p []) + 12 - lenN (fbody h p []) - lenN mark) with 4 by lia.
    rewrite unpack_le0 by bound. split; [reflexivity|].
    apply unpack_app; [rewrite ?lenN_le; auto|bound]. }
  destruct E as [-> ->].
  assert (teqb (h_text h) (str "RR") = true) as -> by (rewrite Ht; reflexivity).
  reflexivity.
Qed.

Lemma make_oldrecov pos c fl ver rs ds p extra :
  head_ok (HOldRecov c fl ver rs ds p extra) ->
  make_block 0x78 (ser_head (HOldRecov c fl ver rs ds p extra)) pos
  = Ok (hblk pos (HOldRecov c fl ver rs ds p extra)).
Proof.
  intros [Hok (HL & Hv & Hrs & Hds & Hp)].
  unfold hblk, sblk, s_raw, ser_sitem, ser_head, s_data.
  set (hd := HOldRecov c fl ver rs ds p extra) in *.
  destruct (hdr_fields _ _ _ _ (head_data hd) Hok) as (F1 & F2 & F3 & F4).
  unfold make_block. rewrite F1, F2, F3, F4. cbn [bind]. ceq. cbn [andb]. cbv iota.
  change F_LONG with 0x8000.
  unfold hd in *. cbn [head_crc head_ty head_flags head_body head_data] in *. rewrite HL.
  rewrite (unpack_body _ _ _ _ _ _ 0), (unpack_body _ _ _ _ _ _ 4),
    (unpack_body _ _ _ _ _ _ 5), (unpack_body _ _ _ _ _ _ 7) by reflexivity.
  set (B := (le 4 p ++ le 1 ver ++ le 2 rs ++ le 4 ds ++ extra) ++ []).
  assert (E1 : unpack 4 B 0 = Ok p) by (unfold B; rewrite <- !app_assoc; fld).
  assert (E2 : unpack 1 B 4 = Ok ver) by (unfold B; rewrite <- !app_assoc; fld).
  assert (E3 : unpack 2 B 5 = Ok rs) by (unfold B; rewrite <- !app_assoc; fld).
  assert (E4 : unpack 4 B 7 = Ok ds) by (unfold B; rewrite <- !app_assoc; fld).
  rewrite E1, E2, E3, E4. reflexivity.
Qed.

(** A 7 byte block of type [t] is read with class code 0. *)
Lemma make_plain7 pos c ty fl :
  hdr_ok c ty fl [] -> has fl 0x8000 = false ->
  make_block 0 (hdr c ty fl []) pos
  = Ok (mkBlock pos c ty fl 7 0 (hdr c ty fl []) KPlain).
Proof.
  intros Hok HL. destruct (hdr_fields0 _ _ _ _ Hok) as (F1 & F2 & F3 & F4).
  unfold make_block. rewrite F1, F2, F3, F4. cbn [bind]. change F_LONG with 0x8000. rewrite HL.
  reflexivity.
Qed.

Lemma make_hblock pos c ty fl body data :
  head_ok (HBlock c ty fl body data) -> body <> [] ->
  make_block ty (ser_head (HBlock c ty fl body data)) pos = Ok (hblk pos (HBlock c ty fl body data)).
Proof.
  intros [Hok (Hty & Hd & H73 & H7B)] Hb.
  unfold hblk, sblk, s_raw, ser_sitem, ser_head, s_data.
  cbn [s_crcv s_ty s_flags s_body s_add s_kind head_crc head_ty head_flags head_body head_data
       head_add] in *.
  assert (HK : head_kind (HBlock c ty fl body data) =
    if ty =? 0x73 then KVolume (unle (takeN 2 body)) (unle (sub 2 4 body))
    else if ty =? 0x7B then KEnd else KPlain) by (destruct body; [congruence|reflexivity]).
  rewrite HK. clear HK.
  set (R := hdr c ty fl body ++ data).
  destruct (hdr_fields _ _ _ _ data Hok) as (F1 & F2 & F3 & F4). fold R in F1, F2, F3, F4.
  unfold make_block. rewrite F1, F2, F3, F4. cbn [bind].
  assert (HA : (if has fl F_LONG then unpack 4 R 7 else Ok 0) = Ok (lenN data)).
  { change F_LONG with 0x8000. destruct (has fl 0x8000).
    - destruct Hd as (b' & -> & Hl). unfold R. rewrite (unpack_body _ _ _ _ _ _ 0) by reflexivity.
      rewrite <- !app_assoc. apply unpack_le0. bound.
    - subst. reflexivity. }
  cbn [In] in Hty.
  unfold T_SrrStored, T_SrrHeader, T_SrrRarFile, T_SrrOso, T_SrrPadding, T_RarVolume, T_RarFile,
    T_RarNewSub, T_RarOldRec, T_RarMax.
  repeat match goal with
  | |- context [ty =? ?t] =>
    lazymatch t with
    | 0x73 => fail | 0x7B => fail
    | _ => replace (ty =? t) with false by (symmetry; apply N.eqb_neq; intros ->; tauto)
    end
  end.
  cbn [andb]. cbv iota. rewrite HA. cbn [bind].
  destruct (N.eqb_spec ty 0x73) as [->|N73].
  - destruct (H73 eq_refl) as [|Hl]; [congruence|].
    assert (U1 : unpack 2 R 7 = Ok (unle (takeN 2 body))).
    { unfold R. rewrite (unpack_body _ _ _ _ _ _ 0) by reflexivity. unfold unpack.
      unfold sub at 1 2. rewrite dropN_0, takeN_app_le by (cbn; lia).
      rewrite lenN_takeN. replace (N.min (N.of_nat 2) (lenN body)) with (N.of_nat 2) by lia.
      now rewrite N.eqb_refl. }
    assert (U2 : unpack 4 R 9 = Ok (unle (sub 2 4 body))).
    { unfold R. rewrite (unpack_body _ _ _ _ _ _ 2) by reflexivity. unfold unpack.
      assert (sub 2 (N.of_nat 4) (body ++ data) = sub 2 4 body) as ->.
      { unfold sub. rewrite dropN_app. replace (2 - lenN body) with 0 by lia.
        rewrite dropN_0, takeN_app_le; [reflexivity|]. rewrite lenN_dropN. cbn; lia. }
      rewrite lenN_sub. replace (N.min 4 (lenN body - 2)) with (N.of_nat 4) by lia.
      now rewrite N.eqb_refl. }
    rewrite U1, U2. reflexivity.
  - destruct (N.eqb_spec ty 0x7B) as [->|N7B]; [|reflexivity].
    destruct (H7B eq_refl) as [|Hl]; [congruence|].
    unfold F_END_DATACRC, F_END_VOLNUMBER.
    assert (HR : lenN R = 7 + lenN body + lenN data) by (unfold R; rewrite lenN_app, lenN_hdr; lia).
    clear H7B. revert Hl. destruct (has fl 2), (has fl 8); intros Hl.
    + destruct (unpack_ok 4 R 7) as [v ->]; [change (N.of_nat 4) with 4; lia|]. cbn [bind].
      destruct (unpack_ok 2 R 11) as [w ->]; [change (N.of_nat 2) with 2; lia|]. reflexivity.
    + destruct (unpack_ok 4 R 7) as [v ->]; [change (N.of_nat 4) with 4; lia|]. reflexivity.
    + cbn [bind].
      destruct (unpack_ok 2 R 7) as [w ->]; [change (N.of_nat 2) with 2; lia|]. reflexivity.
    + reflexivity.
Qed.

(** ** Recovery detection of the reader *)
Lemma is_rec_other ty n h : ty <> 0x78 -> ty <> 0x7A -> is_recovery_raw ty n h = false.
Proof.
  intros H1 H2. unfold is_recovery_raw, T_RarOldRec, T_RarNewSub.
  destruct (N.eqb_spec ty 0x78); [congruence|]. destruct (N.eqb_spec ty 0x7A); [congruence|].
  reflexivity.
Qed.

Lemma fbody_name_len c ty h packed extra :
  lenN (h_raw h) < 65536 ->
  unpack 2 (hdr c ty (h_flags h) (fbody h packed extra)) 26 = Ok (lenN (h_raw h)).
Proof.
  intros H. rewrite <- (app_nil_r (hdr _ _ _ _)).
  rewrite (unpack_body _ _ _ _ _ _ 19) by reflexivity. unfold fbody. rewrite <- !app_assoc. fld.
Qed.

Lemma fbody_name_at c ty h packed extra n :
  has (h_flags h) 0x100 = false -> n = lenN (h_raw h) ->
  sub 32 n (hdr c ty (h_flags h) (fbody h packed extra)) = h_raw h.
Proof.
  intros HL ->. rewrite <- (app_nil_r (hdr _ _ _ _)). change 32 with (7 + 25).
  rewrite sub_hdr_body. unfold fbody. rewrite HL. rewrite <- !app_assoc.
  rewrite !sub_app_skip by (rewrite ?lenN_le; lia). rewrite !lenN_le.
  replace (25 - N.of_nat 4 - N.of_nat 4 - N.of_nat 1 - N.of_nat 4 - N.of_nat 4 - N.of_nat 1 -
     N.of_nat 1 - N.of_nat 2 - N.of_nat 4) with 0 by lia. cbn [app].
  now apply sub_self.
Qed.

Lemma is_rec_sub h d :
  head_ok (HSub h d) ->
  is_recovery_raw 0x7A (lenN (s_hdr (SHead (HSub h d)))) (s_hdr (SHead (HSub h d))) = false.
Proof.
  intros [_ [Hf [HL [Hr _]]]].
  assert (Hl : lenN (h_raw h) < 65536) by (destruct Hf as (_ & _ & _ & _ & _ & _ & ? & _); assumption).
  unfold is_recovery_raw, s_hdr.
  cbn [s_crcv s_ty s_flags s_body head_crc head_ty head_flags head_body head_extra].
  rewrite fbody_name_len by assumption.
  destruct (N.eqb_spec (lenN (h_raw h)) 2) as [E|E]; [|now rewrite !andb_false_r].
  rewrite fbody_name_at by (auto; lia).
  destruct (beqb (h_raw h) (bstr "RR")) eqn:B; [|now rewrite !andb_false_r].
  apply beqb_eq in B. exfalso. apply Hr. exact B.
Qed.

Lemma is_rec_recov h mark rs ds p :
  head_ok (HRecov h mark rs ds p) ->
  is_recovery_raw 0x7A (lenN (s_hdr (SHead (HRecov h mark rs ds p))))
    (s_hdr (SHead (HRecov h mark rs ds p))) = true.
Proof.
  intros [_ [Hf [Hr [Hm [HL _]]]]].
  unfold is_recovery_raw, s_hdr.
  cbn [s_crcv s_ty s_flags s_body head_crc head_ty head_flags head_body head_extra].
  rewrite fbody_name_len, fbody_name_at by (auto; rewrite Hr; reflexivity).
  rewrite Hr. change (lenN RR_NAME =? 2) with true. change (beqb RR_NAME (bstr "RR")) with true.
  rewrite lenN_hdr. unfold fbody. rewrite !lenN_app, !lenN_le.
  match goal with |- context [34 <? ?x] => destruct (N.ltb_spec 34 x) as [|Hlt] end; [reflexivity|].
  lia.
Qed.

(** ** One step of the reader *)
Definition rr_next (rr : option bool) (i : sitem) : option bool :=
  match i with SRar _ fl _ _ => Some (has fl 1) | _ => rr end.
Definition step_ok (m : mode) (data : bytes) (st : rst) (b : block) (st' : rst) : Prop :=
  read1 m data st = Ok (Some (b, st')).

Lemma takeN_data (data post : bytes) : takeN (lenN data) (data ++ post) = data.
Proof. now apply takeN_app_exact. Qed.

(** blocks that keep their data *)
Lemma after_data m pre h data post ty fl e rr b :
  ty <> 0x6A -> ty <> 0x71 -> ty <> 0x74 ->
  is_recovery_raw ty (lenN h) h = false ->
  (if has fl F_LONG || (ty =? T_RarFile) || (ty =? T_RarNewSub) then unpack 4 h 7 else Ok 0)
    = Ok (lenN data) ->
  make_block ty (h ++ data) (lenN pre) = Ok b ->
  (forall f, b_kind b <> KFile f) ->
  after_header m pre h (data ++ post) ty fl e rr =
  Ok (Some (b, mkRst (lenN pre + lenN h + lenN data) e rr)).
Proof.
  intros T1 T2 T3 Hr Ha Hb Hk. unfold after_header. rewrite Ha, Hr. cbn [bind].
  unfold T_SrrRarFile, T_SrrStored, T_RarFile.
  destruct (N.eqb_spec ty 0x6A); [congruence|]. destruct (N.eqb_spec ty 0x71); [congruence|].
  destruct (N.eqb_spec ty 0x74); [congruence|].
  assert (Hrp : forall A (x : A), (if mode_eqb m SRR then x else x) = x) by (intros; now destruct m).
  rewrite Hrp. cbn [bind negb andb].
  rewrite takeN_data. cbn [andb].
  destruct (N.ltb_spec 0 (lenN data)) as [Hl|Hl].
  - rewrite Hb. cbn [bind]. destruct (b_kind b) eqn:K; try reflexivity. now destruct (Hk f).
  - rewrite andb_false_r. assert (data = []) as E by (apply lenN_0; lia). subst data.
    rewrite app_nil_r in Hb. rewrite Hb, lenN_nil, N.add_0_r. cbn [bind].
    destruct (b_kind b) eqn:K; try reflexivity. now destruct (Hk f).
Qed.

(** blocks without data in an SRR *)
Lemma after_nodata pre h post ty fl e rr rr' b add :
  ty <> 0x6A ->
  (if has fl F_LONG || (ty =? T_RarFile) || (ty =? T_RarNewSub) then unpack 4 h 7 else Ok 0)
    = Ok add ->
  (ty = 0x71 /\ rr' = Some (has fl 1) /\ add = 0 \/
   ty <> 0x71 /\ rr' = rr /\
   (is_recovery_raw ty (lenN h) h = true /\ rr = Some true \/
    is_recovery_raw ty (lenN h) h = false /\ (ty = 0x74 \/ add = 0))) ->
  make_block ty h (lenN pre) = Ok b ->
  after_header SRR pre h post ty fl e rr = Ok (Some (b, mkRst (lenN pre + lenN h) e rr')).
Proof.
  intros T1 Ha Hc Hb. unfold after_header. rewrite Ha. cbn [bind mode_eqb].
  unfold T_SrrRarFile, T_SrrStored, T_RarFile.
  destruct (N.eqb_spec ty 0x6A); [congruence|].
  change F_RR_REMOVED with 1.
  destruct Hc as [(-> & -> & ->) | (T2 & -> & [(Hr & ->)|(Hr & Hd)])].
  - ceq. cbn [bind]. change (0 <? 0) with false. rewrite !andb_false_r. cbv iota. rewrite Hb. cbn [bind].
    destruct (b_kind b); try reflexivity. now rewrite andb_false_r.
  - destruct (N.eqb_spec ty 0x71); [congruence|]. rewrite Hr. cbn [bind].
    cbn [negb]. rewrite !andb_false_r. cbv iota. cbn [andb]. rewrite Hb. cbn [bind].
    destruct (b_kind b); try reflexivity. now rewrite andb_false_r.
  - destruct (N.eqb_spec ty 0x71); [congruence|]. rewrite Hr. cbn [bind].
    assert ((negb (ty =? 0x74) && negb false && (0 <? add)) = false) as ->.
    { destruct Hd as [->| ->]; [reflexivity|]. now rewrite !andb_false_r. }
    cbn [andb]. rewrite Hb. cbn [bind].
    destruct (b_kind b); try reflexivity. now rewrite andb_false_r.
Qed.

Lemma after_stored pre h data post fl e rr b :
  has fl F_LONG = true -> unpack 4 h 7 = Ok (lenN data) ->
  make_block 0x6A h (lenN pre) = Ok b -> (forall f, b_kind b <> KFile f) ->
  after_header SRR pre h (data ++ post) 0x6A fl e rr =
  Ok (Some (b, mkRst (lenN pre + lenN h + lenN data) e rr)).
Proof.
  intros HL Ha Hb Hk. unfold after_header. rewrite HL, Ha. cbn [bind orb mode_eqb].
  unfold T_SrrRarFile, T_SrrStored. ceq. rewrite is_rec_other by discriminate. cbn [bind].
  rewrite Hb. cbn [bind]. destruct (b_kind b) eqn:K; try reflexivity. now destruct (Hk f).
Qed.

Lemma body_first4 i v b' :
  s_body i = le 4 v ++ b' -> v < 4294967296 -> unpack 4 (s_hdr i) 7 = Ok v.
Proof.
  intros E H. unfold s_hdr. change 7 with (7 + 0) at 1. rewrite unpack_hdr_body0, E.
  apply unpack_le0. bound.
Qed.
Lemma fbody_nonempty h p e : fbody h p e <> [].
Proof.
  intros E. assert (H : lenN (fbody h p e) = 0) by now rewrite E.
  unfold fbody in H. rewrite !lenN_app, !lenN_le in H. lia.
Qed.
Lemma name_field_nonempty n r : name_field n ++ r <> [].
Proof.
  intros E. assert (H : lenN (name_field n ++ r) = 0) by now rewrite E.
  rewrite lenN_app, lenN_name_field in H. lia.
Qed.
Lemma fbody_first4 hd h p :
  head_body hd = fbody h p (head_extra hd) ->
  unpack 4 (s_hdr (SHead hd)) 7 = Ok (p mod 0x100000000).
Proof.
  intros E. unfold s_hdr. cbn [s_crcv s_ty s_flags s_body]. rewrite E.
  change 7 with (7 + 0) at 1. rewrite unpack_hdr_body0.
  rewrite <- (app_nil_r (fbody _ _ _)). apply fbody_first.
Qed.

Ltac notin H := exfalso; apply H; subst; cbn [In];
  repeat (first [left; reflexivity | right]).
Lemma hblock_add c ty fl body data :
  head_ok (HBlock c ty fl body data) ->
  (if has fl F_LONG || (ty =? T_RarFile) || (ty =? T_RarNewSub)
   then unpack 4 (s_hdr (SHead (HBlock c ty fl body data))) 7 else Ok 0) = Ok (lenN data).
Proof.
  intros [_ (Hty & Hd & _)]. unfold T_RarFile, T_RarNewSub, F_LONG.
  destruct (N.eqb_spec ty 0x74); [notin Hty|]. destruct (N.eqb_spec ty 0x7A); [notin Hty|].
  rewrite !orb_false_r. destruct (has fl 0x8000).
  - destruct Hd as (b' & Hb & Hl). now apply (body_first4 _ _ b').
  - now subst.
Qed.

Lemma hblock_kind c ty fl body data f : head_kind (HBlock c ty fl body data) <> KFile f.
Proof.
  cbn [head_kind]. destruct body; [discriminate|].
  destruct (ty =? 0x73); [discriminate|]. destruct (ty =? 0x7B); discriminate.
Qed.

Lemma hblk_plain7 pos c ty fl :
  hblk pos (HBlock c ty fl [] []) = mkBlock pos c ty fl 7 0 (hdr c ty fl []) KPlain.
Proof.
  unfold hblk, sblk, s_raw. rewrite ser_sitem_hdr. unfold s_hdr.
  cbn [s_crcv s_ty s_flags s_body s_add s_kind s_data head_crc head_ty head_flags head_body head_data
       head_add head_kind]. rewrite app_nil_r. reflexivity.
Qed.
(** both modes: blocks that keep their data *)
Lemma read1_hblock m c ty fl body data pre post e rr :
  head_ok (HBlock c ty fl body data) -> e && mode_eqb m RAR = false ->
  read1 m (pre ++ ser_head (HBlock c ty fl body data) ++ post) (mkRst (lenN pre) e rr) =
  Ok (Some (hblk (lenN pre) (HBlock c ty fl body data),
            mkRst (lenN pre + lenN (ser_head (HBlock c ty fl body data))) (e || (ty =? 0x7B)) rr)).
Proof.
  intros H He. pose proof H as [Hok (Hty & Hd & _)]. set (hd := HBlock c ty fl body data) in *.
  unfold ser_head. rewrite <- app_assoc.
  assert (body = [] \/ body <> []) as [Eb|Hne] by (destruct body; [left|right]; congruence).
  - subst body. assert (HL : has fl 0x8000 = false).
    { destruct (has fl 0x8000); [|reflexivity]. destruct Hd as (b' & Hb & _).
      destruct (le 4 (lenN data)) eqn:El; [|discriminate].
      assert (lenN (le 4 (lenN data)) = 0) by now rewrite El. rewrite lenN_le in H0. discriminate. }
    rewrite HL in Hd. subst data.
    unfold hd in *. cbn [head_crc head_ty head_flags head_body head_data] in *.
    rewrite read1_header7 by assumption.
    destruct (N.eqb_spec ty T_SrrHeader) as [E|_]; [notin Hty|].
    rewrite make_plain7 by assumption. cbn [bind app].
    rewrite app_nil_r, lenN_hdr. change (7 + lenN []) with 7.
    rewrite hblk_plain7. reflexivity.
  - subst hd.
    rewrite read1_header by assumption.
   
    rewrite (after_data _ _ _ _ _ _ _ _ _ (hblk (lenN pre) (HBlock c ty fl body data)));
      cbn [head_ty head_crc head_flags head_body head_data].
    + do 3 f_equal. rewrite lenN_app. f_equal. lia.
    + intros E; notin Hty.
    + intros E; notin Hty.
    + intros E; notin Hty.
    + apply is_rec_other; intros E; notin Hty.
    + exact (hblock_add c ty fl body data H).
    + exact (make_hblock (lenN pre) c ty fl body data H Hne).
    + intros f. apply hblock_kind.
Qed.

Lemma head_packed_lt h p : fhead_ok h p -> has (h_flags h) 0x100 = false -> p < 0x100000000.
Proof. intros (_ & _ & _ & _ & _ & _ & _ & Hs & _) HL. rewrite HL in Hs. destruct Hs as [Hs _]. exact Hs. Qed.

Lemma read1_sub m h d pre post e rr :
  head_ok (HSub h d) -> e && mode_eqb m RAR = false ->
  read1 m (pre ++ ser_head (HSub h d) ++ post) (mkRst (lenN pre) e rr) =
  Ok (Some (hblk (lenN pre) (HSub h d), mkRst (lenN pre + lenN (ser_head (HSub h d))) e rr)).
Proof.
  intros H He. pose proof H as [Hok [Hf [HL _]]].
  unfold ser_head at 1. rewrite <- app_assoc.
  rewrite read1_header; [|assumption|apply fbody_nonempty|assumption].
  rewrite (after_data _ _ _ _ _ _ _ _ _ (hblk (lenN pre) (HSub h d))); try discriminate.
  - cbn [head_ty]. ceq. rewrite orb_false_r. do 3 f_equal. unfold ser_head. rewrite lenN_app. f_equal. cbn [head_ty]. lia.
  - now apply is_rec_sub.
  - cbn [head_ty]. ceq. rewrite orb_true_r. etransitivity; [exact (fbody_first4 (HSub h d) h (lenN d) eq_refl)|].
    f_equal. apply N.mod_small. eapply head_packed_lt; eauto.
  - now apply make_sub.
Qed.


(** SRR mode: blocks whose data is left out *)
Lemma read1_srr_file h p pre post e rr :
  head_ok (HFile h p) ->
  read1 SRR (pre ++ ser_head (HFile h p) ++ post) (mkRst (lenN pre) e rr) =
  Ok (Some (hblk (lenN pre) (HFile h p), mkRst (lenN pre + lenN (ser_head (HFile h p))) e rr)).
Proof.
  intros H. pose proof H as [Hok _]. pose proof (make_file (lenN pre) h p H) as Hm.
  unfold ser_head in *. cbn [head_data] in *. rewrite app_nil_r in *.
  rewrite read1_header; [|assumption|apply fbody_nonempty|now destruct e].
  rewrite (after_nodata _ _ _ _ _ _ _ rr (hblk (lenN pre) (HFile h p)) (p mod 0x100000000)); try discriminate.
  - cbn [head_ty]. ceq. now rewrite orb_false_r.
  - cbn [head_ty]. ceq. rewrite orb_true_r. exact (fbody_first4 (HFile h p) h p eq_refl).
  - right. split; [discriminate|split; [reflexivity|right; split]].
    + now apply is_rec_other.
    + now left.
  - exact Hm.
Qed.

Lemma oldrec_add c fl ver rs ds p extra :
  head_ok (HOldRecov c fl ver rs ds p extra) ->
  unpack 4 (s_hdr (SHead (HOldRecov c fl ver rs ds p extra))) 7 = Ok p.
Proof.
  intros [_ (_ & _ & _ & _ & Hp)]. eapply body_first4; [reflexivity|assumption].
Qed.

Lemma read1_srr_recov hd pre post e :
  head_ok hd -> is_recov hd = true ->
  read1 SRR (pre ++ ser_head hd ++ post) (mkRst (lenN pre) e (Some true)) =
  Ok (Some (hblk (lenN pre) hd, mkRst (lenN pre + lenN (ser_head hd)) e (Some true))).
Proof.
  intros H Hr. destruct hd as [| h mark rs ds p | c fl ver rs ds p extra| |]; try discriminate.
  - pose proof H as [Hok [Hf _]]. pose proof (make_recov (lenN pre) h mark rs ds p H) as Hm.
    unfold ser_head in *. cbn [head_data] in *. rewrite app_nil_r in *.
    rewrite read1_header; [|assumption|apply fbody_nonempty|now destruct e].
    rewrite (after_nodata _ _ _ _ _ _ _ (Some true) (hblk (lenN pre) (HRecov h mark rs ds p))
      (p mod 0x100000000)); try discriminate.
    + cbn [head_ty]. ceq. now rewrite orb_false_r.
    + cbn [head_ty]. ceq. rewrite orb_true_r. exact (fbody_first4 (HRecov h mark rs ds p) h p eq_refl).
    + right. split; [discriminate|split; [reflexivity|left; split]]; [|reflexivity].
      now apply is_rec_recov.
    + exact Hm.
  - pose proof H as [Hok [HL _]]. pose proof (make_oldrecov (lenN pre) c fl ver rs ds p extra H) as Hm.
    unfold ser_head in *. cbn [head_data] in *. rewrite app_nil_r in *.
    rewrite read1_header; [|assumption| |now destruct e].
    2:{ intros E. assert (X : lenN (head_body (HOldRecov c fl ver rs ds p extra)) = 0) by now rewrite E.
        cbn [head_body] in X. rewrite lenN_app, lenN_le in X. lia. }
    rewrite (after_nodata _ _ _ _ _ _ _ (Some true) (hblk (lenN pre) (HOldRecov c fl ver rs ds p extra))
      p); try discriminate.
    + cbn [head_ty]. ceq. now rewrite orb_false_r.
    + cbn [head_ty head_flags]. unfold F_LONG. rewrite HL. exact (oldrec_add c fl ver rs ds p extra H).
    + right. split; [discriminate|split; [reflexivity|left; split]]; reflexivity.
    + exact Hm.
Qed.

Lemma read1_head_srr hd pre post e rr :
  head_ok hd -> (is_recov hd = true -> rr = Some true) ->
  read1 SRR (pre ++ ser_head hd ++ post) (mkRst (lenN pre) e rr) =
  Ok (Some (hblk (lenN pre) hd, mkRst (lenN pre + lenN (ser_head hd)) (e || is_end hd) rr)).
Proof.
  intros H Hr. destruct hd; unfold is_end; cbn [head_ty]; ceq.
  - rewrite orb_false_r. now apply read1_srr_file.
  - rewrite orb_false_r. rewrite (Hr eq_refl) in *. now apply read1_srr_recov.
  - rewrite orb_false_r. rewrite (Hr eq_refl) in *. now apply read1_srr_recov.
  - rewrite orb_false_r. apply read1_sub; [assumption|now destruct e].
  - apply read1_hblock; [assumption|now destruct e].
Qed.

Lemma read1_sitem i pre post e rr :
  sitem_ok i -> pre <> [] \/ (exists c f n x, i = SApp c f n x) ->
  (forall hd, i = SHead hd -> is_recov hd = true -> rr = Some true) ->
  read1 SRR (pre ++ ser_sitem i ++ post) (mkRst (lenN pre) e rr) =
  Ok (Some (sblk (lenN pre) i,
            mkRst (lenN pre + lenN (ser_sitem i)) (e || (s_ty i =? 0x7B)) (rr_next rr i))).
Proof.
  intros H Hp Hrr.
  destruct i as [c fl name extra|c fl name data extra|c fl name extra|c fl size hash name extra
                |c fl data extra|hd]; cbn [rr_next s_ty]; ceq; rewrite ?orb_false_r.
  - pose proof H as [Hok [HL _]]. pose proof (make_app (lenN pre) c fl name extra H) as Hm.
    unfold s_raw in Hm. unfold ser_sitem in *. cbn [s_data] in *. rewrite app_nil_r in *.
    set (i := SApp c fl name extra) in *.
    destruct (s_body i) as [|b0 b1] eqn:Eb.
    + rewrite read1_header7; [|exact Hok|now destruct e].
      change (s_ty i) with 0x69 in *. ceq. change T_SrrHeader with 0x69. rewrite Hm. cbn [bind]. rewrite lenN_hdr, orb_false_r. reflexivity.
    + rewrite read1_header; [|exact Hok|discriminate|now destruct e].
      rewrite (after_nodata _ _ _ _ _ _ _ rr (sblk (lenN pre) i) 0); try discriminate.
      * now rewrite orb_false_r.
      * unfold F_LONG. subst i. cbn [s_flags s_ty]. rewrite HL. reflexivity.
      * right. split; [discriminate|split; [reflexivity|right; split]].
        -- now apply is_rec_other.
        -- now right.
      * exact Hm.
  - pose proof H as [Hok [HL [Hn Hd]]].
    assert (Hpos : lenN pre <> 0).
    { destruct Hp as [Hp|(?&?&?&?&Hp)]; [|discriminate]. intros E. apply Hp. now apply lenN_0. }
    pose proof (make_stored (lenN pre) c fl name data extra H Hpos) as Hm.
    set (i := SStored c fl name data extra) in *.
    rewrite ser_sitem_hdr, <- app_assoc. unfold s_hdr.
    rewrite read1_header; [|exact Hok| |now destruct e].
    2:{ intros E. assert (X : lenN (s_body i) = 0) by now rewrite E.
        cbn [i s_body] in X. rewrite lenN_app, lenN_le in X. lia. }
    change (s_ty i) with 0x6A. change (s_data i) with data.
    etransitivity. { apply (after_stored pre (s_hdr i) data post fl _ rr (sblk (lenN pre) i)).
      - exact HL.
      - eapply body_first4; [reflexivity|assumption].
      - exact Hm.
      - discriminate. }
    ceq. rewrite orb_false_r, lenN_app, N.add_assoc. reflexivity.
  - pose proof H as [Hok [HL _]]. pose proof (make_rar (lenN pre) c fl name extra H) as Hm.
    unfold s_raw in Hm. unfold ser_sitem in *. cbn [s_data] in *. rewrite app_nil_r in *.
    set (i := SRar c fl name extra) in *.
    rewrite read1_header; [|exact Hok|apply name_field_nonempty|now destruct e].
    rewrite (after_nodata _ _ _ _ _ _ _ (Some (has fl 1)) (sblk (lenN pre) i) 0); try discriminate.
    + now rewrite orb_false_r.
    + unfold F_LONG. subst i. cbn [s_flags s_ty]. rewrite HL. reflexivity.
    + left. auto.
    + exact Hm.
  - pose proof H as [Hok [HL _]]. pose proof (make_oso (lenN pre) c fl size hash name extra H) as Hm.
    unfold s_raw in Hm. unfold ser_sitem in *. cbn [s_data] in *. rewrite app_nil_r in *.
    set (i := SOso c fl size hash name extra) in *.
    rewrite read1_header; [|exact Hok| |now destruct e].
    2:{ intros E. assert (X : lenN (s_body i) = 0) by now rewrite E.
        cbn [i s_body] in X. rewrite lenN_app, lenN_le in X. lia. }
    rewrite (after_nodata _ _ _ _ _ _ _ rr (sblk (lenN pre) i) 0); try discriminate.
    + now rewrite orb_false_r.
    + unfold F_LONG. subst i. cbn [s_flags s_ty]. rewrite HL. reflexivity.
    + right. split; [discriminate|split; [reflexivity|right; split]].
      * now apply is_rec_other.
      * now right.
    + exact Hm.
  - pose proof H as [Hok [HL Hd]]. pose proof (make_pad (lenN pre) c fl data extra H) as Hm.
    unfold s_raw in Hm.
    set (i := SPad c fl data extra) in *. rewrite ser_sitem_hdr in *. rewrite <- app_assoc.
    unfold s_hdr at 1.
    rewrite read1_header; [|exact Hok| |now destruct e].
    2:{ intros E. assert (X : lenN (s_body i) = 0) by now rewrite E.
        cbn [i s_body] in X. rewrite lenN_app, lenN_le in X. lia. }
    etransitivity. { apply (after_data SRR pre (s_hdr i) data post 0x6C fl _ rr (sblk (lenN pre) i));
        try discriminate.
      - now apply is_rec_other.
      - unfold F_LONG. rewrite HL. eapply body_first4; [reflexivity|assumption].
      - exact Hm. }
    change (s_ty i) with 0x6C. ceq. rewrite orb_false_r, lenN_app, N.add_assoc. reflexivity.
  - apply read1_head_srr; [apply H|eauto].
Qed.

(** RAR mode: the data of these blocks is skipped *)
Lemma after_skip pre h d post ty fl e rr b add :
  ty <> 0x6A ->
  (if has fl F_LONG || (ty =? T_RarFile) || (ty =? T_RarNewSub) then unpack 4 h 7 else Ok 0)
    = Ok add ->
  (ty = 0x74 \/ is_recovery_raw ty (lenN h) h = true) ->
  make_block ty h (lenN pre) = Ok b ->
  (match b_kind b with
   | KFile f => if has (b_flags b) F_LARGE then f_packed f = lenN d else add = lenN d
   | _ => add = lenN d end) ->
  after_header RAR pre h (d ++ post) ty fl e rr =
  Ok (Some (b, mkRst (lenN pre + lenN h + lenN d) e rr)).
Proof.
  intros T1 Ha Hc Hb Hk. unfold after_header. rewrite Ha. cbn [bind mode_eqb andb].
  unfold T_SrrStored, T_RarFile. destruct (N.eqb_spec ty 0x6A); [congruence|].
  assert ((negb (ty =? 0x74) && negb (is_recovery_raw ty (lenN h) h)) = false) as ->.
  { destruct Hc as [->| ->]; [reflexivity|]. now rewrite andb_false_r. }
  cbn [andb].
  destruct (N.ltb_spec 0 add) as [Hl|Hl]; rewrite Hb; cbn [bind];
    destruct (b_kind b) eqn:K; try (subst add; try assert (lenN d = 0) as -> by lia;
      rewrite ?N.add_0_r; reflexivity);
    rewrite andb_true_r; destruct (has (b_flags b) F_LARGE); rewrite ?Hk; try reflexivity.
  - do 4 f_equal. lia.
Qed.

Lemma read1_rar hd d pre post rr :
  head_ok hd -> lenN d = head_packed hd ->
  read1 RAR (pre ++ ser_head hd ++ d ++ post) (mkRst (lenN pre) false rr) =
  Ok (Some (hblk (lenN pre) hd, mkRst (lenN pre + lenN (ser_head hd) + lenN d) (is_end hd) rr)).
Proof.
  intros H Hd. destruct hd as [h p|h mark rs ds p|c fl ver rs ds p extra|h dd|c ty fl body dd];
    unfold is_end; cbn [head_ty head_packed] in *; ceq.
  - pose proof H as [Hok Hf]. pose proof (make_file (lenN pre) h p H) as Hm.
    unfold ser_head in *. cbn [head_data] in *. rewrite app_nil_r in *.
    rewrite read1_header; [|assumption|apply fbody_nonempty|reflexivity].
    rewrite (after_skip _ _ _ _ _ _ _ _ (hblk (lenN pre) (HFile h p)) (p mod 0x100000000)); try discriminate.
    + reflexivity.
    + cbn [head_ty]. ceq. rewrite orb_true_r. exact (fbody_first4 (HFile h p) h p eq_refl).
    + now left.
    + exact Hm.
    + cbn [hblk sblk b_kind b_flags s_kind head_kind s_flags head_flags f_packed file_info_of].
      unfold F_LARGE. destruct (has (h_flags h) 0x100) eqn:EL; [now rewrite Hd|].
      rewrite Hd. apply N.mod_small. eapply head_packed_lt; eauto.
  - pose proof H as [Hok [Hf (_ & _ & HL & _)]]. pose proof (make_recov (lenN pre) h mark rs ds p H) as Hm.
    unfold ser_head in *. cbn [head_data] in *. rewrite app_nil_r in *.
    rewrite read1_header; [|assumption|apply fbody_nonempty|reflexivity].
    rewrite (after_skip _ _ _ _ _ _ _ _ (hblk (lenN pre) (HRecov h mark rs ds p))
      (p mod 0x100000000)); try discriminate.
    + reflexivity.
    + cbn [head_ty]. ceq. rewrite orb_true_r. exact (fbody_first4 (HRecov h mark rs ds p) h p eq_refl).
    + right. now apply is_rec_recov.
    + exact Hm.
    + cbn [hblk sblk b_kind s_kind head_kind].
      rewrite Hd. apply N.mod_small. eapply head_packed_lt; eauto.
  - pose proof H as [Hok [HL _]]. pose proof (make_oldrecov (lenN pre) c fl ver rs ds p extra H) as Hm.
    unfold ser_head in *. cbn [head_data] in *. rewrite app_nil_r in *.
    rewrite read1_header; [|assumption| |reflexivity].
    2:{ intros E. assert (X : lenN (head_body (HOldRecov c fl ver rs ds p extra)) = 0) by now rewrite E.
        cbn [head_body] in X. rewrite lenN_app, lenN_le in X. lia. }
    rewrite (after_skip _ _ _ _ _ _ _ _ (hblk (lenN pre) (HOldRecov c fl ver rs ds p extra))
      p); try discriminate.
    + reflexivity.
    + cbn [head_ty head_flags]. unfold F_LONG. rewrite HL. exact (oldrec_add c fl ver rs ds p extra H).
    + right. reflexivity.
    + exact Hm.
    + cbn [hblk sblk b_kind s_kind head_kind]. congruence.
  - assert (d = []) as -> by now apply lenN_0. cbn [app].
    rewrite lenN_nil, N.add_0_r. now apply read1_sub.
  - assert (d = []) as -> by now apply lenN_0. cbn [app].
    rewrite lenN_nil, N.add_0_r. now apply read1_hblock.
Qed.
