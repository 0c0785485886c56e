(** Reading ends, and covers the file. *)
From Verif Require Import Base BaseFacts Rar RarSpec RarFacts NameFacts ReadFacts TileSpec.

Definition nf {A} (r : result A) : Prop := r <> Err OutOfFuel.
Lemma nf_ok {A} (a : A) : nf (Ok a).
Proof. discriminate. Qed.
Lemma nf_bind {A B} (r : result A) (f : A -> result B) :
  nf r -> (forall a, r = Ok a -> nf (f a)) -> nf (bind r f).
Proof. intros Hr Hf. destruct r; [now apply Hf|]. cbn [bind]. intros E. apply Hr. congruence. Qed.
Lemma nf_unpack k d p : nf (unpack k d p).
Proof. unfold unpack, nf. destruct (_ =? _); discriminate. Qed.
Lemma nf_pack k n : nf (pack k n).
Proof. unfold pack, nf. destruct (_ <? _); discriminate. Qed.
Lemma nf_decode d : nf (decode_utf8 d).
Proof. unfold decode_utf8, nf. destruct (utf8_dec d); discriminate. Qed.
Ltac nf :=
  repeat first
  [ apply nf_unpack | apply nf_pack | apply nf_decode | apply nf_ok | discriminate
  | match goal with
    | |- nf (bind _ _) => apply nf_bind; [|intros ? ?]
    | |- nf (if ?c then _ else _) => destruct c
    | |- nf (let '(_, _) := ?x in _) => destruct x
    | |- nf (match ?x with _ => _ end) => destruct x eqn:?
    end ].

Lemma nf_put_run std n : forall pos f, nf (put_run std pos f n).
Proof. induction n as [|n IH]; intros pos f; cbn [put_run]; nf. apply IH. Qed.

Lemma nf_uni fuel : forall std enc hi fl fb pos,
  (List.length enc < fuel)%nat -> nf (uni_loop fuel std enc hi fl fb pos).
Proof.
  induction fuel as [|fuel IH]; intros std enc hi fl fb pos Hf; [lia|]. cbn [uni_loop].
  destruct enc as [|e0 enc0]; [nf|]. cbn [List.length] in Hf.
  destruct (fb =? 0).
  - destruct enc0 as [|c enc2]; [nf|]. cbn [List.length] in Hf.
    nf; try (apply nf_put_run); try (apply IH; subst; cbn [List.length] in *; lia).
  - nf; try (apply nf_put_run); try (apply IH; subst; cbn [List.length] in *; lia).
Qed.
Lemma nf_decode_name fl n : nf (decode_name fl n).
Proof.
  unfold decode_name, unicode_decode. nf; apply nf_uni; lia.
Qed.
Lemma nf_xtime fl d p dos : nf (parse_xtime fl d p dos).
Proof.
  unfold parse_xtime. destruct (has fl 8); [|nf]. apply nf_bind; [nf|intros q _].
  generalize (N.to_nat (N.land fl 3)) q. intros n; induction n as [|n IH]; intros r; nf. apply IH.
Qed.
Lemma nf_ext d p : nf (parse_ext_time d p).
Proof. unfold parse_ext_time. nf; apply nf_xtime. Qed.
Lemma nf_parse_file fl raw : nf (parse_file fl raw).
Proof. unfold parse_file. nf; first [apply nf_decode_name | apply nf_ext | idtac]. Qed.
Lemma nf_make_block ty raw pos : nf (make_block ty raw pos).
Proof. unfold make_block, unpack_file_name. nf; apply nf_parse_file. Qed.
Lemma nf_make_padding pad pos : nf (make_padding pad pos).
Proof. unfold make_padding, padding_bytes, write_header. nf. Qed.
Lemma nf_read1 m d st : nf (read1 m d st).
Proof.
  unfold read1. nf; try apply nf_make_padding; try apply nf_make_block.
Qed.

(** ** Fields as numbers at a position *)
Lemma has_testbit n k : has n (2 ^ k) = N.testbit n k.
Proof.
  unfold has. destruct (N.testbit n k) eqn:E.
  - destruct (N.eqb_spec (N.land n (2 ^ k)) 0) as [Z|]; [|reflexivity].
    assert (N.testbit (N.land n (2 ^ k)) k = true) as X.
    { rewrite N.land_spec, E, N.pow2_bits_true. reflexivity. }
    rewrite Z, N.bits_0 in X. discriminate.
  - destruct (N.eqb_spec (N.land n (2 ^ k)) 0) as [|Z]; [reflexivity|]. exfalso. apply Z.
    apply N.bits_inj. intros j. rewrite N.land_spec, N.bits_0, N.pow2_bits_eqb.
    destruct (N.eqb_spec k j) as [->|]; [now rewrite E|apply andb_false_r].
Qed.
Lemma sub_sub {A} o k p n (d : list A) : o + k <= n -> sub o k (sub p n d) = sub (p + o) k d.
Proof.
  intros H. unfold sub. rewrite dropN_takeN, dropN_dropN, takeN_takeN.
  f_equal; [lia|f_equal; lia].
Qed.
Lemma unpack_le_at k p n data off v :
  unpack k (sub p n data) off = Ok v -> k <> O -> v = le_at data (p + off) (N.of_nat k).
Proof.
  intros H Hk. pose proof (unpack_ok_len _ _ _ _ H Hk) as L. rewrite lenN_sub in L.
  unfold unpack in H. rewrite sub_sub in H by lia.
  destruct (_ =? _) in H; [|discriminate]. apply ok_inj in H. unfold le_at. congruence.
Qed.
Lemma unpack_le_at_app k p n data x off v :
  unpack k (sub p n data ++ x) off = Ok v -> k <> O -> off + N.of_nat k <= lenN (sub p n data) ->
  v = le_at data (p + off) (N.of_nat k).
Proof.
  intros H Hk L. destruct (unpack_ok k (sub p n data) off L) as [w Hw].
  pose proof (unpack_app_l _ x _ _ _ Hw) as E. rewrite H in E. apply ok_inj in E. subst w.
  now apply unpack_le_at in Hw.
Qed.

Ltac okdestr H :=
  repeat match type of H with
  | bind ?r _ = Ok _ => let a := fresh "v" in let E := fresh "E" in destruct r as [a|] eqn:E; [cbn [bind] in H|discriminate]
  | (if ?c then _ else _) = Ok _ => destruct c eqn:?
  | (let '(_, _) := ?x in _) = Ok _ => destruct x
  | Err _ = Ok _ => discriminate
  end.

Lemma make_block_inv ty raw pos b :
  make_block ty raw pos = Ok b ->
  b_pos b = pos /\ b_raw b = raw /\ unpack 1 raw 2 = Ok (b_type b) /\
  unpack 2 raw 3 = Ok (b_flags b) /\ unpack 2 raw 5 = Ok (b_hsize b) /\
  (forall f, b_kind b = KFile f -> ty = 0x74 /\ exists p, parse_file (b_flags b) raw = Ok (f, p)) /\
  (ty = 0x74 -> exists f, b_kind b = KFile f).
Proof.
  unfold make_block. intros H.
  destruct (unpack 2 raw 0) as [v|] eqn:E; [cbn [bind] in H|discriminate].
  destruct (unpack 1 raw 2) as [rty|] eqn:E0; [cbn [bind] in H|discriminate].
  destruct (unpack 2 raw 3) as [fl|] eqn:E1; [cbn [bind] in H|discriminate].
  destruct (unpack 2 raw 5) as [hs|] eqn:E2; [cbn [bind] in H|discriminate].
  destruct ((ty =? T_SrrStored) && (pos =? 0)); [discriminate|].
  destruct (if has fl F_LONG then unpack 4 raw 7 else Ok 0) as [add|]; [cbn [bind] in H|discriminate].
  destruct (N.eqb_spec ty 0x74) as [E74|E74].
  - subst ty. change (0x74 =? T_SrrHeader) with false in H. change (0x74 =? T_SrrStored) with false in H.
    change (0x74 =? T_SrrRarFile) with false in H. change (0x74 =? T_SrrOso) with false in H.
    change (0x74 =? T_SrrPadding) with false in H. change (0x74 =? T_RarVolume) with false in H.
    change (0x74 =? T_RarFile) with true in H. cbv iota in H.
    destruct (parse_file fl raw) as [[f p]|] eqn:EP; [cbn [bind] in H|discriminate].
    apply ok_inj in H. subst b. cbn [b_pos b_raw b_type b_flags b_hsize b_kind].
    repeat split; eauto. intros; match goal with h : KFile _ = KFile _ |- _ => injection h as <- end; eauto.
  - assert (HH : exists a k, b = mkBlock pos v rty fl hs a raw k /\ forall f, k <> KFile f).
    { unfold T_RarFile in H. destruct (N.eqb_spec ty 0x74); [contradiction|].
      okdestr H; apply ok_inj in H; subst b; eexists _, _; (split; [reflexivity|discriminate]). }
    destruct HH as (a & k & -> & Hk). cbn [b_pos b_raw b_type b_flags b_hsize b_kind].
    repeat split; try assumption; try (intros; congruence); match goal with h : _ = KFile _ |- _ => now destruct (Hk _ h) end.
Qed.

Lemma parse_file_packed fl raw f p :
  parse_file fl raw = Ok (f, p) -> exists a, unpack 4 raw 7 = Ok a /\
    (if has fl F_LARGE then exists h, unpack 4 raw 32 = Ok h /\ f_packed f = a + h * 0x100000000
     else f_packed f = a).
Proof.
  unfold parse_file. intros H. destruct (lenN raw <? 32); [discriminate|].
  destruct (unpack 4 raw 7) as [a|] eqn:E; [cbn [bind] in H|discriminate].
  exists a. split; [reflexivity|].
  do 8 (match type of H with bind ?r _ = _ => destruct r as [?|] eqn:?; [cbn [bind] in H|discriminate] end).
  destruct (has fl F_LARGE).
  - destruct (unpack 4 raw 32) as [h|] eqn:E32; [cbn [bind] in H|discriminate].
    destruct (unpack 4 raw 36) as [h2|] eqn:E36; [cbn [bind] in H|discriminate].
    exists h. split; [reflexivity|]. okdestr H; apply ok_inj in H; injection H as <- _; reflexivity.
  - cbn [bind] in H. okdestr H; apply ok_inj in H; injection H as <- _; cbn [f_packed]; lia.
Qed.

Lemma rr_at data p hs :
  34 < hs -> p + hs <= lenN data ->
  beqb (sub 32 2 (sub p hs data)) (bstr "RR") = (le_at data (p + 32) 1 =? 82) && (le_at data (p + 33) 1 =? 82).
Proof.
  intros H1 H2. rewrite sub_sub by lia.
  assert (L1 : lenN (sub (p + 32) 1 data) = 1) by (rewrite lenN_sub; lia).
  assert (L2 : lenN (sub (p + 33) 1 data) = 1) by (rewrite lenN_sub; lia).
  assert (E : sub (p + 32) 2 data = sub (p + 32) 1 data ++ sub (p + 33) 1 data).
  { unfold sub. change 2 with (1 + 1). rewrite takeN_add, dropN_dropN. do 2 f_equal. f_equal. lia. }
  rewrite E. unfold le_at.
  destruct (sub (p + 32) 1 data) as [|a [|? ?]]; [discriminate| |rewrite !lenN_cons in L1; lia].
  destruct (sub (p + 33) 1 data) as [|b [|? ?]]; [discriminate| |rewrite !lenN_cons in L2; lia].
  cbn [app unle]. rewrite !N.mul_0_r, !N.add_0_r.
  change (bstr "RR") with [x52; x52].
  unfold beqb. cbn [list_eqb]. rewrite andb_true_r.
  replace (b2n a =? 82) with (Byte.eqb a x52) by (destruct a; reflexivity).
  replace (b2n b =? 82) with (Byte.eqb b x52) by (destruct b; reflexivity).
  reflexivity.
Qed.
Lemma recovery_raw_at data p hs :
  hs = le_at data (p + 5) 2 -> 7 < hs -> p + hs <= lenN data ->
  is_recovery_raw (le_at data (p + 2) 1) hs (sub p hs data) = recovery_at data p.
Proof.
  intros E H1 H2. unfold is_recovery_raw, recovery_at. rewrite <- E.
  change T_RarOldRec with 0x78. change T_RarNewSub with 0x7A.
  destruct (N.ltb_spec 7 hs); [|lia]. cbn [andb]. f_equal.
  destruct (le_at data (p + 2) 1 =? 0x7A); [|reflexivity]. cbn [andb].
  destruct (N.ltb_spec 34 hs) as [H34|]; [|reflexivity]. cbn [andb].
  rewrite rr_at by assumption. rewrite andb_assoc. f_equal. f_equal.
  destruct (unpack_ok 2 (sub p hs data) 26) as [v Hv]; [rewrite lenN_sub; lia|].
  rewrite Hv. apply unpack_le_at in Hv; [|discriminate]. subst v. reflexivity.
Qed.

Definition inv (m : mode) (data : bytes) (st : rst) : Prop :=
  r_end st && mode_eqb m RAR = true -> r_pos st <= lenN data.
Definition rem_of (rr : option bool) : bool := match rr with Some b => b | None => false end.

(** the fields of a block made from the header at [p] (and data behind it) *)
Lemma made_fields ty data p hs x b :
  make_block ty (sub p hs data ++ x) p = Ok b -> 7 <= hs -> p + hs <= lenN data ->
  b_pos b = p /\ b_raw b = sub p hs data ++ x /\ b_type b = le_at data (p + 2) 1 /\
  b_flags b = le_at data (p + 3) 2 /\ b_hsize b = le_at data (p + 5) 2.
Proof.
  intros H H7 Hl. apply make_block_inv in H as (H1 & H2 & H3 & H4 & H5 & _).
  assert (L : lenN (sub p hs data) = hs) by (rewrite lenN_sub; lia).
  apply unpack_le_at_app in H3; [|discriminate|cbn; lia].
  apply unpack_le_at_app in H4; [|discriminate|cbn; lia].
  apply unpack_le_at_app in H5; [|discriminate|cbn; lia]. auto.
Qed.

Definition facts (m : mode) (data : bytes) (st : rst) (b : block) (st' : rst) : Prop :=
  r_pos st < lenN data /\ inv m data st' /\
  (r_pos st' <= lenN data -> forall bs,
     (m = RAR -> r_end st = true -> bs = []) ->
     tiles m data (r_pos st') (r_end st') (rem_of (r_rr st')) bs ->
     tiles m data (r_pos st) (r_end st) (rem_of (r_rr st)) (b :: bs)) /\
  (r_pos st + 7 <= r_pos st' \/ r_pos st' = lenN data) /\
  (m = RAR -> r_end st = true -> r_pos st' = lenN data /\ r_end st' = true).

Lemma facts_padding data p rr b :
  p < lenN data ->
  make_padding (dropN p data) p = Ok b ->
  facts RAR data (mkRst p true rr) b (mkRst (lenN data) true rr).
Proof.
  intros Hp H. unfold make_padding in H.
  destruct (padding_bytes (dropN p data)) as [raw|] eqn:E; [cbn [bind] in H|discriminate].
  apply ok_inj in H. subst b. unfold facts, inv. cbn [r_pos r_end r_rr].
  repeat split; try lia. intros _ bs Hbs _. rewrite (Hbs eq_refl eq_refl).
  apply tiles_padding; cbn [b_pos b_kind b_hsize b_raw]; try reflexivity; try assumption.
  - now rewrite lenN_dropN.
  - unfold padding_bytes in E. destruct (write_header 0x6C6C 0x6C F_LONG 11) as [h|] eqn:Eh; [cbn [bind] in E|discriminate].
    destruct (pack 4 (lenN (dropN p data))) as [s|] eqn:Es; [cbn [bind] in E|discriminate].
    apply ok_inj in E. subst raw. apply pack_inv in Es as [_ ->].
    assert (Hh : Ok h = Ok (le 2 0x6C6C ++ le 1 0x6C ++ le 2 F_LONG ++ le 2 11)) by (rewrite <- Eh; reflexivity).
    apply ok_inj in Hh. subst h. rewrite (app_assoc _ (le 4 _)), dropN_app_exact; [reflexivity|].
    rewrite lenN_app, lenN_le. reflexivity.
Qed.

Lemma read1_tile m data st b st' :
  read1 m data st = Ok (Some (b, st')) -> inv m data st -> facts m data st b st'.
Proof.
  destruct st as [p e rr]. unfold read1. cbn [r_pos r_end r_rr]. unfold inv. cbn [r_pos r_end]. intros H Hinv.
  destruct (N.eqb_spec p (lenN data)) as [|Hne]; [discriminate|].
  destruct (N.ltb_spec (lenN data) (p + 7)) as [Hs|Hs].
  { destruct (e && mode_eqb m RAR) eqn:He; [|discriminate]. specialize (Hinv eq_refl).
    apply andb_true_iff in He as [-> Hm]. destruct m; [|discriminate].
    destruct (make_padding (dropN p data) p) as [b'|] eqn:Ep; [cbn [bind] in H|discriminate].
    apply ok_inj in H. apply some_inj in H. injection H as <- <-.
    replace (N.max p (lenN data)) with (lenN data) by lia. apply facts_padding; [lia|assumption]. }
  destruct (unpack 1 (sub p 7 data) 2) as [ty|] eqn:Ety; [cbn [bind] in H|discriminate].
  destruct (unpack 2 (sub p 7 data) 3) as [fl|] eqn:Efl; [cbn [bind] in H|discriminate].
  destruct (unpack 2 (sub p 7 data) 5) as [hs|] eqn:Ehs; [cbn [bind] in H|discriminate].
  destruct (e && mode_eqb m RAR) eqn:He.
  { specialize (Hinv eq_refl). apply andb_true_iff in He as [-> Hm]. destruct m; [|discriminate].
    replace (sub p 7 data ++ dropN (p + 7) data) with (dropN p data) in H.
    2:{ unfold sub. rewrite (N.add_comm p 7), <- dropN_dropN. symmetry. apply takeN_dropN. }
    destruct (make_padding (dropN p data) p) as [b'|] eqn:Ep; [cbn [bind] in H|discriminate].
    apply ok_inj in H. apply some_inj in H. injection H as <- <-. apply facts_padding; [lia|assumption]. }
  clear Hinv.
  apply unpack_le_at in Ety; [|discriminate]. apply unpack_le_at in Efl; [|discriminate].
  apply unpack_le_at in Ehs; [|discriminate]. cbn in Ety, Efl, Ehs.
  assert (HA : m = RAR -> e = true -> False) by (intros -> ->; discriminate).
  destruct ((hs <? 7) || (lenN data <? p + hs)) eqn:Eh; [discriminate|].
  apply orb_false_iff in Eh as [Eh1 Eh2]. apply N.ltb_ge in Eh1, Eh2.
  destruct (N.eqb_spec hs 7) as [E7|E7].
  { assert (Hb : exists t, make_block t (sub p 7 data ++ []) p = Ok b /\
       st' = mkRst (p + 7) (e || (ty =? T_RarMax)) rr).
    { rewrite app_nil_r. destruct (ty =? T_SrrHeader).
      - destruct (make_block T_SrrHeader (sub p 7 data) p) as [b'|] eqn:Eb; [cbn [bind] in H|discriminate].
        apply ok_inj in H. apply some_inj in H. injection H as -> <-. eauto.
      - destruct (make_block 0 (sub p 7 data) p) as [b'|] eqn:Eb; [cbn [bind] in H|discriminate].
        apply ok_inj in H. apply some_inj in H. injection H as -> <-. eauto. }
    destruct Hb as (t & Hb & ->). apply made_fields in Hb as (F1 & F2 & F3 & F4 & F5); [|lia|lia].
    rewrite app_nil_r in F2.
    assert (Hx : extent m (rem_of rr) data p = 7).
    { unfold extent, announced, large_file. rewrite <- Ehs, E7. change (7 <? 7) with false.
      rewrite !andb_false_r. destruct m; [reflexivity|]. destruct (_ =? 0x74); [reflexivity|].
      now destruct (recovery_at data p && rem_of rr). }
    unfold facts, inv. cbn [r_pos r_end r_rr].
    split; [lia|]. split; [intros _; lia|]. split; [|split; [lia|intros; exfalso; auto]].
    intros _ bs _ Ht. eapply tiles_block with (e := p + 7); try eassumption; try lia.
    - rewrite F3, F4, F5 || idtac. rewrite Hx. destruct (data_read m data p); lia.
    - rewrite F2. replace (p + 7 - p) with 7 by lia. rewrite F5, <- Ehs, E7. now destruct (data_read m data p).
    - rewrite F5, <- Ehs, E7. change (7 <? 7) with false. rewrite !andb_false_r.
      rewrite F3, <- Ety. exact Ht. }
  set (buf := sub p hs data) in *.
  assert (Lb : lenN buf = hs) by (unfold buf; rewrite lenN_sub; lia).
  destruct (if has fl F_LONG || (ty =? T_RarFile) || (ty =? T_RarNewSub) then unpack 4 buf 7 else Ok 0)
    as [add|] eqn:Eadd; [cbn [bind] in H|discriminate].
  assert (Hann : announced data p = add).
  { unfold announced, announces. rewrite <- Ety, <- Efl, <- Ehs. destruct (N.ltb_spec 7 hs); [|lia].
    rewrite andb_true_r. rewrite <- (has_testbit fl 15). change (2 ^ 15) with F_LONG.
    change 0x74 with T_RarFile. change 0x7A with T_RarNewSub.
    destruct (has fl F_LONG || (ty =? T_RarFile) || (ty =? T_RarNewSub)).
    - apply unpack_le_at in Eadd; [|discriminate]. now rewrite Eadd.
    - now apply ok_inj in Eadd. }
  assert (Hrec : is_recovery_raw ty hs buf = recovery_at data p).
  { subst ty. unfold buf. apply recovery_raw_at; [exact Ehs|lia|lia]. }
  rewrite Hrec in H.
  set (isr := recovery_at data p) in *.
  (* position after the header and the reader state *)
  assert (HP : exists rr' p2,
     (if mode_eqb m SRR then
        if ty =? T_SrrRarFile then Ok (Some (has fl F_RR_REMOVED), p + hs)
        else if isr then match rr with None => Err AttributeError | Some true => Ok (rr, p + hs)
                         | Some false => Ok (rr, p + hs + add) end
        else Ok (rr, p + hs)
      else Ok (rr, p + hs)) = Ok (rr', p2) /\
     p2 = (if mode_eqb m SRR && negb (ty =? T_SrrRarFile) && isr && negb (rem_of rr) then p + hs + add else p + hs) /\
     rem_of rr' = (if mode_eqb m SRR && (ty =? T_SrrRarFile) then has fl F_RR_REMOVED else rem_of rr)).
  { destruct (mode_eqb m SRR); [|eauto]. destruct (ty =? T_SrrRarFile); [eauto|]. cbn [andb negb].
    destruct isr; [|eauto]. destruct rr as [[|]|]; [eauto|eauto|discriminate]. }
  destruct HP as (rr' & p2 & EP & Hp2 & Hrem). rewrite EP in H. cbn [bind] in H. clear EP.
  assert (Hisr71 : isr = true -> ty <> T_SrrRarFile /\ ty <> T_SrrStored /\ ty <> T_RarFile).
  { unfold isr, recovery_at. rewrite <- Ety. intros X. apply andb_true_iff in X as [_ X].
    apply orb_true_iff in X as [X|X].
    - apply N.eqb_eq in X. rewrite X. repeat split; discriminate.
    - rewrite !andb_true_iff in X. destruct X as [[[[X _] _] _] _]. apply N.eqb_eq in X. rewrite X.
      repeat split; discriminate. }
  assert (Hdr : data_read m data p = negb ((ty =? T_SrrStored) || (ty =? T_RarFile) || isr)).
  { unfold data_read. rewrite <- Ety. reflexivity. }
  set (d := sub p2 add data) in *.
  assert (HR : exists raw p3,
     (if ty =? T_SrrStored then (buf, p2 + add)
      else if negb (ty =? T_RarFile) && negb isr && (0 <? add) then (buf ++ d, p2 + lenN d)
      else if mode_eqb m RAR && (0 <? add) then (buf, p2 + add) else (buf, p2)) = (raw, p3)).
  { eexists _, _. apply surjective_pairing. }
  destruct HR as (raw & p3 & ER). rewrite ER in H.
  destruct (make_block ty raw p) as [b'|] eqn:Eb; [cbn [bind] in H|discriminate].
  apply ok_inj in H. apply some_inj in H. injection H as -> <-.
  (* shape of raw and p3 *)
  assert (HS : raw = buf ++ (if data_read m data p then sub (p + hs) add data else []) /\
     p3 = if data_read m data p then N.min (p + hs + add) (lenN data)
          else if ty =? T_SrrStored then p + hs + add
          else if mode_eqb m RAR then p + hs + add
          else if isr && negb (rem_of rr) then p + hs + add else p + hs).
  { rewrite Hdr. destruct (N.eqb_spec ty T_SrrStored) as [Es|Es].
    - injection ER as <- <-. cbn [orb negb]. rewrite app_nil_r. split; [reflexivity|].
      rewrite Hp2. destruct isr; [|now rewrite !andb_false_r].
      now destruct (Hisr71 eq_refl) as (_ & X & _).
    - cbn [orb]. destruct (N.eqb_spec ty T_RarFile) as [Ef|Ef].
      + cbn [orb negb andb] in *. assert (isr = false) as Hi.
        { destruct isr; [|reflexivity]. now destruct (Hisr71 eq_refl) as (_ & _ & X). }
        rewrite Hi, !andb_false_r in Hp2. rewrite Hi. subst p2. cbn [andb].
        destruct (mode_eqb m RAR).
        * destruct (N.ltb_spec 0 add); injection ER as <- <-; rewrite app_nil_r; split; try reflexivity; lia.
        * injection ER as <- <-. rewrite app_nil_r. split; reflexivity.
      + cbn [orb negb andb] in *. destruct isr eqn:Hi; cbn [orb negb andb] in *.
        * destruct (Hisr71 eq_refl) as (X & _ & _). destruct (N.eqb_spec ty T_SrrRarFile); [contradiction|].
          destruct m; cbn [mode_eqb andb negb] in *.
          -- subst p2. destruct (N.ltb_spec 0 add); injection ER as <- <-; rewrite app_nil_r; split; try reflexivity; lia.
          -- injection ER as <- <-. rewrite app_nil_r. split; [reflexivity|exact Hp2].
        * rewrite !andb_false_r in Hp2. cbn [andb] in Hp2. subst p2. unfold d in *.
          destruct (N.ltb_spec 0 add) as [Hz|Hz].
          -- injection ER as <- <-. split; [reflexivity|]. rewrite lenN_sub. lia.
          -- rewrite andb_false_r in ER. injection ER as <- <-.
             assert (add = 0) as -> by lia.
             replace (sub (p + hs) 0 data) with (@nil byte) by (unfold sub; now rewrite takeN_0).
             rewrite app_nil_r. split; [reflexivity|lia]. }
  destruct HS as [HS1 HS2].
  pose proof Eb as Eb'. rewrite HS1 in Eb'. unfold buf in Eb'.
  apply made_fields in Eb' as (F1 & F2 & F3 & F4 & F5); [|lia|lia].
  apply make_block_inv in Eb as (_ & _ & _ & _ & _ & Hk1 & Hk2).
  set (p4 := match b_kind b with
     | KFile f => if has (b_flags b) F_LARGE && mode_eqb m RAR then p + hs + f_packed f else p3
     | _ => p3 end).
  assert (H4 : p4 = if data_read m data p then N.min (p + extent m (rem_of rr) data p) (lenN data)
                    else p + extent m (rem_of rr) data p).
  { unfold extent. rewrite <- Ehs, <- Ety, Hann. fold isr.
    destruct (N.eqb_spec ty T_RarFile) as [Ef|Ef].
    - assert (data_read m data p = false) as Hd0.
      { rewrite Hdr, Ef. change (T_RarFile =? T_SrrStored) with false. reflexivity. }
      rewrite Hd0 in *. rewrite Ef in HS2. change (T_RarFile =? T_SrrStored) with false in HS2. cbv iota in HS2.
      rewrite Ef. change (T_RarFile =? 0x74) with true. cbv iota.
      destruct (Hk2 Ef) as [f Hf]. unfold p4. rewrite Hf.
      destruct (Hk1 f Hf) as (_ & q & Hq). apply parse_file_packed in Hq as (a & Ha & Hpk).
      rewrite HS1, app_nil_r in Ha, Hpk. unfold buf in Ha, Hpk.
      assert (a = add) as ->.
      { apply unpack_le_at in Ha; [|discriminate]. rewrite Ha. cbn.
        change (le_at data (p + 7) 4) with (le_at data (p + 7) (N.of_nat 4)).
        rewrite Ef in Eadd. rewrite orb_true_r in Eadd. cbn [orb] in Eadd.
        apply unpack_le_at in Eadd; [|discriminate]. now rewrite Eadd. }
      destruct m; cbn [mode_eqb] in *.
      + rewrite andb_true_r. unfold large_file. rewrite <- Ety, <- Efl, <- Ehs, Ef.
        change (T_RarFile =? 0x74) with true. destruct (N.ltb_spec 7 hs); [|lia]. rewrite andb_true_r. cbn [andb].
        rewrite <- (has_testbit fl 8). change (2 ^ 8) with F_LARGE. rewrite F4, <- Efl. rewrite F4, <- Efl in Hpk.
        destruct (has fl F_LARGE).
        * destruct Hpk as (h & Hh & ->). apply unpack_le_at in Hh; [|discriminate]. rewrite Hh. cbn. lia.
        * rewrite HS2. lia.
      + rewrite andb_false_r, HS2. assert (isr = false) as ->.
        { destruct isr; [|reflexivity]. now destruct (Hisr71 eq_refl) as (_ & _ & X). }
        cbn [andb]. lia.
    - assert (p4 = p3) as ->.
      { unfold p4. destruct (b_kind b) eqn:Ek; try reflexivity. destruct (Hk1 f eq_refl) as [X _]. contradiction. }
      rewrite HS2. destruct (data_read m data p) eqn:Ed.
      + symmetry in Hdr. apply negb_true_iff, orb_false_iff in Hdr as [_ Hi].
        unfold large_file. rewrite <- Ety. change 0x74 with T_RarFile.
        destruct (N.eqb_spec ty T_RarFile); [contradiction|]. cbn [andb]. rewrite Hi. cbn [andb].
        destruct m; lia.
      + unfold large_file. rewrite <- Ety. change 0x74 with T_RarFile.
        destruct (N.eqb_spec ty T_RarFile); [contradiction|]. cbn [andb].
        symmetry in Hdr. apply negb_false_iff in Hdr.
        destruct m; cbn [mode_eqb].
        * destruct (ty =? T_SrrStored); lia.
        * destruct (N.eqb_spec ty T_SrrStored) as [Es|Es].
          -- assert (isr = false) as ->; [|cbn [andb]; lia].
             destruct isr; [|reflexivity]. now destruct (Hisr71 eq_refl) as (_ & X & _).
          -- cbn [orb] in Hdr. rewrite Hdr. cbn [andb]. destruct (rem_of rr); cbn [negb]; lia. }
  assert (Hge : p + 7 <= p4).
  { rewrite H4. unfold extent. rewrite <- Ehs. destruct (data_read m data p); lia. }
  fold p4. unfold facts, inv. cbn [r_pos r_end r_rr].
  split; [lia|]. split.
  - intros X. apply andb_true_iff in X as [X1 X2]. destruct m; [|discriminate].
    destruct e; [now destruct HA|]. cbn [orb] in X1. apply N.eqb_eq in X1.
    rewrite H4. assert (data_read RAR data p = true) as ->; [|lia].
    rewrite Hdr, X1. destruct isr eqn:Hi; [|reflexivity]. exfalso. unfold isr, recovery_at in Hi.
    rewrite <- Ety, X1 in Hi. cbn [andb] in Hi. change (T_RarMax =? 0x78) with false in Hi.
    change (T_RarMax =? 0x7A) with false in Hi. rewrite andb_false_r in Hi. discriminate.
  - split; [|split; [lia|intros; exfalso; auto]].
    intros Hle bs _ Ht. eapply tiles_block with (e := p4); try eassumption; try lia.
    + rewrite F2. destruct (data_read m data p) eqn:Ed.
      * rewrite H4 in *. unfold sub. replace (N.min (p + extent m (rem_of rr) data p) (lenN data) - p)
          with (hs + (N.min (p + extent m (rem_of rr) data p) (lenN data) - p - hs)).
        2:{ unfold extent. rewrite <- Ehs. lia. }
        rewrite takeN_add, dropN_dropN, (N.add_comm hs p). f_equal.
        assert (X : extent m (rem_of rr) data p = hs + add).
        { unfold extent. rewrite <- Ehs, <- Ety, Hann. symmetry in Hdr.
          apply negb_true_iff, orb_false_iff in Hdr as [Hdr Hi]. apply orb_false_iff in Hdr as [_ Hf].
          unfold large_file. rewrite <- Ety. change 0x74 with T_RarFile. rewrite Hf. cbn [andb].
          fold isr. rewrite Hi. cbn [andb]. destruct m; lia. }
        rewrite X. destruct (N.le_gt_cases (p + (hs + add)) (lenN data)) as [L|L].
        -- f_equal. lia.
        -- rewrite (takeN_all add), takeN_all; rewrite ?lenN_dropN; try lia. reflexivity.
      * rewrite app_nil_r, F5, <- Ehs. reflexivity.
    + rewrite F3, <- Ety. rewrite Hrem in Ht.
      rewrite F4, F5, <- Efl, <- Ehs. destruct (N.ltb_spec 7 hs); [|lia]. rewrite andb_true_r.
      change (ty =? 0x71) with (ty =? T_SrrRarFile).
      rewrite <- (has_testbit fl 0). exact Ht.
Qed.

(** ** The loop *)
Lemma read_loop_ends fuel : forall m data st,
  inv m data st -> (lenN data < r_pos st + N.of_nat fuel /\ r_pos st <= lenN data) \/ (0 < N.of_nat fuel /\ lenN data < r_pos st) ->
  nf (read_loop fuel m data st).
Proof.
  induction fuel as [|fuel IH]; intros m data st Hinv Hf; [lia|].
  cbn [read_loop]. apply nf_bind; [apply nf_read1|]. intros [[b st']|] E; [|nf].
  apply read1_tile in E; [|assumption]. destruct E as (H1 & H2 & _ & H3 & _).
  apply nf_bind; [|intros; nf]. apply IH; [assumption|]. lia.
Qed.
Lemma read_loop_mono fuel : forall fuel' m data st,
  (fuel <= fuel')%nat -> nf (read_loop fuel m data st) ->
  read_loop fuel' m data st = read_loop fuel m data st.
Proof.
  induction fuel as [|fuel IH]; intros fuel' m data st Hle Hn; [now destruct Hn|].
  destruct fuel' as [|fuel']; [lia|]. cbn [read_loop] in *.
  destruct (read1 m data st) as [[[b st']|]|] eqn:E; cbn [bind] in *; try reflexivity.
  rewrite (IH fuel'); [reflexivity|lia|].
  intros X. apply Hn. now rewrite X.
Qed.
Lemma inv0 m data : inv m data st0.
Proof. intros X. discriminate. Qed.
Lemma read_loop_tiles fuel : forall m data st bs,
  inv m data st -> read_loop fuel m data st = Ok bs ->
  tiles m data (r_pos st) (r_end st) (rem_of (r_rr st)) bs /\ r_pos st <= lenN data /\
  (bs = [] -> r_pos st = lenN data).
Proof.
  induction fuel as [|fuel IH]; intros m data st bs Hinv H; [discriminate|]. cbn [read_loop] in H.
  destruct (read1 m data st) as [[[b st']|]|] eqn:E; cbn [bind] in H; [| |discriminate].
  - destruct (read_loop fuel m data st') as [bs'|] eqn:E'; [cbn [bind] in H|discriminate].
    apply ok_inj in H. subst bs. apply read1_tile in E; [|assumption].
    destruct E as (H1 & H2 & H3 & H4 & H5). pose proof (IH _ _ _ _ H2 E') as (I1 & I2 & I3).
    split; [|split; [lia|discriminate]]. apply H3; [assumption| |assumption].
    intros Hm He. destruct (H5 Hm He) as [X Y]. destruct fuel as [|fuel]; [discriminate|].
    cbn [read_loop] in E'. rewrite read1_end in E' by assumption. cbn [bind] in E'. now apply ok_inj in E'.
  - apply ok_inj in H. subst bs. unfold read1 in E.
    destruct (N.eqb_spec (r_pos st) (lenN data)) as [Ep|Ep].
    + rewrite Ep. split; [constructor|split; [lia|reflexivity]].
    + exfalso. revert E. clear. intros E.
      destruct (lenN data <? r_pos st + 7).
      * destruct (r_end st && mode_eqb m RAR); [|discriminate]. destruct (make_padding _ _); discriminate.
      * okdestr E; try discriminate.
        all: try (destruct (make_padding _ _); discriminate).
Qed.

Theorem reading_ends m data : exists r, nf r /\
  forall fuel, (List.length data < fuel)%nat -> read_loop fuel m data st0 = r.
Proof.
  exists (read_loop (S (List.length data)) m data st0).
  assert (H : nf (read_loop (S (List.length data)) m data st0)).
  { apply read_loop_ends; [apply inv0|]. left. cbn [r_pos st0]. rewrite lenN_length. lia. }
  split; [exact H|]. intros fuel Hf. now apply read_loop_mono.
Qed.
Lemma tiles_count m data p e r bs : tiles m data p e r bs -> N.of_nat (List.length bs) + p <= lenN data.
Proof.
  induction 1 as [| |p ended rem b bs e He Hp Ht Hfl Hhs H7 Hle Ee Hel Hraw Htl IH]; cbn [List.length]; try lia.
  assert (p + b_hsize b <= e).
  { rewrite Ee. unfold extent. rewrite <- Hhs. destruct (data_read m data p); lia. }
  lia.
Qed.
Theorem read_all_ends data : read_all data <> Err OutOfFuel /\
  forall bs, read_all data = Ok bs -> N.of_nat (List.length bs) <= lenN data.
Proof.
  unfold read_all. destruct (reader_mode data) as [m|x] eqn:E; cbn [bind].
  - split.
    + destruct (reading_ends m data) as (r & Hr & H). rewrite (H (S (List.length data))) by lia. exact Hr.
    + intros bs H. apply read_loop_tiles in H as (H & _); [|apply inv0]. apply tiles_count in H. cbn [r_pos st0] in H. lia.
  - split; [|discriminate]. revert E. unfold reader_mode.
    destruct (lenN data <? 20); [congruence|]. destruct (beqb _ _); [congruence|].
    destruct (dropN 2 data); [congruence|]. destruct (b2n b =? T_RarMin); [congruence|].
    destruct (b2n b =? T_SrrHeader); congruence.
Qed.
Theorem read_all_tiles data bs :
  read_all data = Ok bs -> exists m, reader_mode data = Ok m /\ tiles m data 0 false false bs.
Proof.
  unfold read_all. destruct (reader_mode data) as [m|x] eqn:E; cbn [bind]; [|discriminate].
  intros H. exists m. split; [reflexivity|]. apply read_loop_tiles in H as (H & _); [exact H|apply inv0].
Qed.
