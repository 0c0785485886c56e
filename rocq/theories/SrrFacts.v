(** Lemmas about the blocks the tool writes and about editing. *)
From Verif Require Import Base BaseFacts Path Crc Rar RarSpec ReadSpec RarFacts NameFacts ReadFacts
  ReadAllFacts Srr SrrSpec.

Ltac bindinv H :=
  let a := fresh "v" in let E := fresh "E" in
  apply bind_ok in H; destruct H as (a & E & H).

Lemma write_header_ok c ty fl n :
  c < 65536 -> ty < 256 -> fl < 65536 -> n < 65536 ->
  write_header c ty fl n = Ok (le 2 c ++ le 1 ty ++ le 2 fl ++ le 2 n).
Proof.
  intros. unfold write_header.
  rewrite (pack_ok 2 c), (pack_ok 1 ty), (pack_ok 2 fl), (pack_ok 2 n); try reflexivity; bound.
Qed.
Lemma write_header_inv c ty fl n b :
  write_header c ty fl n = Ok b ->
  n < 65536 /\ b = le 2 c ++ le 1 ty ++ le 2 fl ++ le 2 n.
Proof.
  unfold write_header. intros H. bindinv H. bindinv H. bindinv H. bindinv H.
  apply pack_inv in E as [_ ->], E0 as [_ ->], E1 as [_ ->], E2 as [E2 ->]. apply ok_inj in H.
  split; [exact E2|congruence].
Qed.
Lemma pack_name_ok n : name_ok n -> pack_file_name n = Ok (name_field n).
Proof.
  intros [H1 H2]. unfold pack_file_name. rewrite encode_utf8_utf8 by assumption. cbn [bind].
  rewrite pack_ok by bound. reflexivity.
Qed.
Lemma pack_name_inv n b : pack_file_name n = Ok b -> name_ok n /\ b = name_field n.
Proof.
  unfold pack_file_name. intros H. bindinv H. apply encode_utf8_inv in E as [E ->]. bindinv H.
  apply pack_inv in E0 as [E0 ->]. apply ok_inj in H. split; [split; [assumption|exact E0]|symmetry; exact H].
Qed.

Lemma utf8_nil : utf8 [] = [].
Proof. reflexivity. Qed.

(** application header *)
Lemma header_inv app b :
  srr_header_bytes app = Ok b -> b = ser_sitem (app_item app) /\ sitem_ok (app_item app).
Proof.
  unfold srr_header_bytes. intros H. bindinv H. apply encode_utf8_inv in E as [Hv ->].
  destruct app as [|c app].
  - cbv in H. apply ok_inj in H. subst b. split; [reflexivity|]. repeat split.
  - set (a := c :: app) in *.
    assert (0 <? lenN a = true) as Hl by (apply N.ltb_lt; unfold a; rewrite lenN_cons; lia).
    rewrite Hl in H. bindinv H. apply write_header_inv in E as [Hn ->]. bindinv H.
    apply pack_inv in E as [Hp ->]. apply ok_inj in H. subst b.
    unfold app_item. change (match a with [] => 0 | _ => 1 end) with 1.
    assert (Hbl : lenN (s_body (SApp 0x6969 1 a [])) = 2 + lenN (utf8 a)).
    { cbn [s_body]. change (has 1 1) with true. cbv iota. rewrite app_nil_r. apply lenN_name_field. }
    split.
    + unfold ser_sitem, hdr. rewrite Hbl. cbn [s_body s_crcv s_ty s_flags s_data].
      change (has 1 1) with true. cbv iota. rewrite !app_nil_r. unfold name_field.
      rewrite N.add_assoc. rewrite <- !app_assoc. reflexivity.
    + split; [|split; [reflexivity|]].
      * unfold hdr_ok. rewrite Hbl. cbn [s_crcv s_ty s_flags].
        repeat split; try reflexivity. rewrite N.add_assoc. exact Hn.
      * change (has 1 1) with true. split; [exact Hv|exact Hp].
Qed.
Lemma header_ok app :
  valid_text app -> lenN (utf8 app) < 65527 -> srr_header_bytes app = Ok (ser_sitem (app_item app)).
Proof.
  intros Hv Hl. enough (exists b, srr_header_bytes app = Ok b) as (b & E).
  { rewrite E. f_equal. now apply header_inv in E. }
  unfold srr_header_bytes. rewrite encode_utf8_utf8 by assumption. cbn [bind].
  destruct (0 <? lenN app).
  - rewrite write_header_ok by (try reflexivity; lia). cbn [bind]. rewrite pack_ok by bound. cbn [bind]. eauto.
  - eexists. reflexivity.
Qed.

(** stored files *)
Lemma stored_header_inv name d b :
  stored_header_bytes name (lenN d) = Ok b ->
  b = s_hdr (stored_item (name, d)) /\ sitem_ok (stored_item (name, d)).
Proof.
  unfold stored_header_bytes. intros H. bindinv H. apply pack_name_inv in E as [Hn ->].
  destruct (is_good_srr name); [|discriminate]. cbn [negb] in H.
  destruct ((lenN name =? 0) || (0x10000 <=? 7 + 4 + lenN (name_field name))); [discriminate|].
  bindinv H. apply write_header_inv in E as [Hl ->]. bindinv H. apply pack_inv in E as [Hd ->].
  apply ok_inj in H. subst b.
  assert (Hbl : lenN (s_body (stored_item (name, d))) = 4 + lenN (name_field name)).
  { cbn [s_body stored_item fst snd]. rewrite app_nil_r, lenN_app, lenN_le. reflexivity. }
  split.
  - unfold s_hdr, hdr. rewrite Hbl. cbn [s_body s_crcv s_ty s_flags stored_item fst snd].
    rewrite app_nil_r, N.add_assoc, <- !app_assoc. reflexivity.
  - split; [|split; [reflexivity|split; [exact Hn|exact Hd]]].
    unfold hdr_ok. rewrite Hbl. repeat split; try reflexivity. rewrite N.add_assoc. exact Hl.
Qed.
Definition stored_name_ok (n : text) : Prop :=
  valid_text n /\ n <> [] /\ is_good_srr n = true /\ lenN (utf8 n) + 13 < 65536.
Lemma stored_header_ok name d :
  stored_name_ok name -> lenN d < 4294967296 ->
  stored_header_bytes name (lenN d) = Ok (s_hdr (stored_item (name, d))).
Proof.
  intros (Hv & He & Hg & Hl) Hd.
  enough (exists b, stored_header_bytes name (lenN d) = Ok b) as (b & E).
  { rewrite E. f_equal. now apply stored_header_inv in E. }
  unfold stored_header_bytes. rewrite pack_name_ok by (split; [assumption|lia]). cbn [bind].
  rewrite Hg. cbn [negb]. rewrite lenN_name_field.
  destruct (N.eqb_spec (lenN name) 0) as [Z|_]; [now apply lenN_0 in Z|]. cbn [orb].
  destruct (N.leb_spec 0x10000 (7 + 4 + (2 + lenN (utf8 name)))); [lia|].
  rewrite write_header_ok by (try reflexivity; lia). cbn [bind]. rewrite pack_ok by bound. cbn [bind]. eauto.
Qed.
Lemma store_inv nd b :
  store_bytes nd = Ok b -> b = ser_sitem (stored_item nd) /\ sitem_ok (stored_item nd).
Proof.
  destruct nd as [n d]. unfold store_bytes. cbn [fst snd]. intros H. bindinv H.
  apply stored_header_inv in E as [-> Hok]. apply ok_inj in H. subst b. split; [reflexivity|exact Hok].
Qed.
Lemma store_ok nd :
  stored_name_ok (fst nd) -> lenN (snd nd) < 4294967296 ->
  store_bytes nd = Ok (ser_sitem (stored_item nd)).
Proof.
  destruct nd as [n d]. cbn [fst snd]. intros Hn Hd. unfold store_bytes. cbn [fst snd].
  now rewrite stored_header_ok by assumption.
Qed.

(** volume markers *)
Lemma rarfile_inv name b :
  rarfile_bytes name = Ok b -> b = ser_sitem (rar_item name) /\ sitem_ok (rar_item name) /\ name <> [].
Proof.
  unfold rarfile_bytes. destruct (N.eqb_spec (lenN name) 0) as [Z|Z]; [discriminate|]. intros H.
  bindinv H. apply pack_name_inv in E as [Hn ->]. bindinv H. apply write_header_inv in E as [Hl ->].
  apply ok_inj in H. subst b.
  split; [|split; [split; [|split; [reflexivity|exact Hn]]|]].
  - unfold ser_sitem, hdr. cbn [s_body s_crcv s_ty s_flags s_data rar_item]. rewrite !app_nil_r, <- !app_assoc.
    reflexivity.
  - unfold hdr_ok. cbn [s_body s_crcv s_ty s_flags s_data rar_item]. rewrite app_nil_r.
    repeat split; try reflexivity. exact Hl.
  - intros ->. now apply Z.
Qed.
Lemma rarfile_ok name :
  valid_text name -> name <> [] -> lenN (utf8 name) + 9 < 65536 ->
  rarfile_bytes name = Ok (ser_sitem (rar_item name)).
Proof.
  intros Hv He Hl. enough (exists b, rarfile_bytes name = Ok b) as (b & E).
  { rewrite E. f_equal. now apply rarfile_inv in E. }
  unfold rarfile_bytes. destruct (N.eqb_spec (lenN name) 0) as [Z|_]; [now apply lenN_0 in Z|].
  rewrite pack_name_ok by (split; [assumption|lia]). cbn [bind]. rewrite lenN_name_field.
  rewrite write_header_ok by (try reflexivity; lia). cbn [bind]. eauto.
Qed.

(** ISDb hashes *)
Lemma oso_inv size hash name b :
  oso_bytes size hash name = Ok b ->
  exists v, unhex 0 hash = Ok v /\ lenN hash = 16 /\
    b = ser_sitem (oso_item size v name) /\ sitem_ok (oso_item size v name).
Proof.
  unfold oso_bytes. intros H. bindinv H. apply pack_name_inv in E as [Hn ->].
  destruct (N.eqb_spec (lenN hash) 16) as [H16|]; [|discriminate]. cbn [negb] in H. bindinv H.
  apply write_header_inv in E as [Hl ->]. bindinv H. apply pack_inv in E as [Hs ->]. bindinv H.
  rename v into hv. bindinv H. apply pack_inv in E0 as [Hv ->]. apply ok_inj in H. subst b.
  exists hv. split; [exact E|split; [exact H16|]].
  assert (Hbl : lenN (s_body (oso_item size hv name)) = 16 + lenN (name_field name)).
  { cbn [s_body oso_item]. rewrite app_nil_r, !lenN_app, !lenN_le. lia. }
  split.
  - unfold ser_sitem, hdr. rewrite Hbl. cbn [s_body s_crcv s_ty s_flags s_data oso_item].
    rewrite !app_nil_r. change (7 + 8 + 8) with 23. replace (7 + (16 + lenN (name_field name))) with
     (23 + lenN (name_field name)) by lia. rewrite <- !app_assoc. reflexivity.
  - split; [|split; [reflexivity|split; [exact Hn|split; [exact Hs|exact Hv]]]].
    unfold hdr_ok. rewrite Hbl. repeat split; try reflexivity. lia.
Qed.

(** padding *)
Definition pad1 (pad : bytes) : sitem := SPad 0x6C6C 0x8000 pad [].
Lemma padding_inv pad b :
  padding_bytes pad = Ok b -> b = ser_sitem (pad1 pad) /\ sitem_ok (pad1 pad).
Proof.
  unfold padding_bytes. intros H. bindinv H. apply write_header_inv in E as [_ ->]. bindinv H.
  apply pack_inv in E as [Hp ->]. apply ok_inj in H. subst b. split.
  - unfold ser_sitem, hdr, pad1. cbn [s_body s_crcv s_ty s_flags s_data].
    rewrite !app_nil_r, lenN_le, <- !app_assoc. reflexivity.
  - split; [|split; [reflexivity|exact Hp]].
    unfold hdr_ok, pad1. cbn [s_body s_crcv s_ty s_flags]. rewrite app_nil_r, lenN_le. repeat split; reflexivity.
Qed.
