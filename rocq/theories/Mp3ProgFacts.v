(** Mp3ProgFacts: the code of Mp3Prog.v on a file gives what Mp3.v says. *)
From Verif Require Import Base BaseFacts SrsRec Srs SrrFacts Mp3 Mp3Prog StreamSpec Prog ProgSpec ProgFacts AviProgFacts.
From Verif Require StrmProgFacts.

(** wherever it starts, the code gives this *)
Definition gives {A} (c : bytes) (p : prog A) (x : result A) : Prop := forall pos, exists q, run (flat_op c) pos p = do r <- x; Ok (r, q).
Section Gives.
Variable c : bytes.
Lemma g_ret {A} (a : A) : gives c (Ret a) (Ok a).
Proof. intros pos. exists pos. reflexivity. Qed.
Lemma g_raise {A} e : gives c (Raise e) (@Err A e).
Proof. intros pos. exists pos. reflexivity. Qed.
Lemma g_lift {A} (x : result A) : gives c (lift x) x.
Proof. intros pos. exists pos. rewrite run_lift. now destruct x. Qed.
Lemma g_bind {A B} (p : prog A) (k : A -> prog B) x y : gives c p x -> (forall a, gives c (k a) (y a)) -> gives c (pbind p k) (bind x y).
Proof.
  intros P K pos. rewrite run_bind. destruct (P pos) as (q & ->). destruct x as [a|e]; [|exists 0; reflexivity]. cbn [bind fst snd]. apply K.
Qed.
Lemma zread_at p n pos : run (flat_op c) pos (p_zread p n) = do d <- zread c p n; Ok (d, Z.to_N p + lenN d).
Proof.
  unfold p_zread, zread. rewrite run_bind, run_seek. cbv zeta. rewrite Z.add_0_l. destruct (p <? 0)%Z; [reflexivity|]. cbn [bind fst snd]. rewrite run_read. reflexivity.
Qed.
Lemma g_zread p n : gives c (p_zread p n) (zread c p n).
Proof. intros pos. rewrite zread_at. destruct (zread c p n) as [d|e]; [eexists|exists 0]; reflexivity. Qed.
Lemma zread_n p n : zread c (Z.of_N p) (Z.of_N n) = Ok (sub p n c).
Proof. unfold zread. replace (Z.of_N p <? 0)%Z with false by lia. rewrite N2Z.id. now rewrite read_at_pos. Qed.
Lemma g_sub p n : gives c (p_zread (Z.of_N p) (Z.of_N n)) (Ok (sub p n c)).
Proof. rewrite <- zread_n. apply g_zread. Qed.
Lemma unpack_sub k p : unpack k (sub p (N.of_nat k) c) 0 = unpack k c p.
Proof. unfold unpack. replace (sub 0 (N.of_nat k) (sub p (N.of_nat k) c)) with (sub p (N.of_nat k) c); [reflexivity|]. unfold sub. rewrite (dropN_0 (takeN _ _)). symmetry. apply takeN_all. rewrite lenN_takeN. lia. Qed.
Lemma beqb_true a b : beqb a b = true -> a = b.
Proof. apply beqb_eq. Qed.

Lemma id3_ok fuel pos : gives c (p_id3_loop fuel pos) (id3_loop fuel c pos).
Proof.
  revert pos. induction fuel as [|fuel IH]; intros pos; [apply g_raise|]. cbn [p_id3_loop id3_loop]. intros q. rewrite run_bind, zread_at. change 3%Z with (Z.of_N 3). rewrite zread_n. cbn [bind fst snd].
  destruct (beqb (sub pos 3 c) (bstr "ID3")) eqn:E; [|exists (Z.to_N (Z.of_N pos) + lenN (sub pos 3 c)); reflexivity]. apply beqb_true in E. rewrite E. change (lenN (bstr "ID3")) with 3. rewrite N2Z.id.
  rewrite run_bind, run_seek. cbv zeta. replace (Z.of_N (pos + 3) + Z.of_N 3 <? 0)%Z with false by lia. cbn [bind fst snd]. rewrite run_bind, run_read. change 4%Z with (Z.of_N 4). rewrite read_at_pos. replace (Z.to_N (Z.of_N (pos + 3) + Z.of_N 3)) with (pos + 6) by lia. cbn [bind fst snd].
  match goal with |- exists q, run _ ?pos0 _ = _ => generalize pos0 end. change (gives c (ask size <- lift (decode_id3_size (sub (pos + 6) 4 c)); ask r <- p_id3_loop fuel (pos + (10 + size)); Ret (mkM (Z.of_N (10 + size)) (str "ID3") (Z.of_N pos) :: fst r, snd r))
    (do size <- decode_id3_size (sub (pos + 6) 4 c); do r <- id3_loop fuel c (pos + (10 + size)); Ok (mkM (Z.of_N (10 + size)) (str "ID3") (Z.of_N pos) :: fst r, snd r))).
  apply g_bind; [apply g_lift|]. intros size. apply g_bind; [apply IH|]. intros r. apply g_ret.
Qed.
Lemma tag_ok : gives c (p_step_tag (lenN c)) (step_tag c).
Proof.
  intros pos. unfold p_step_tag, step_tag. cbv zeta. rewrite run_bind, run_seek. cbv zeta. unfold zread. replace (Z.of_N (lenN c) + -128)%Z with (Z.of_N (lenN c) - 128)%Z by lia. destruct (Z.ltb_spec (Z.of_N (lenN c) - 128) 0) as [L|L]; [exists 0; reflexivity|].
  cbn [bind fst snd]. rewrite run_bind, run_tell. cbn [bind fst snd]. rewrite run_bind, run_read. cbn [bind fst snd]. rewrite run_ret. rewrite Z2N.id by exact L. eexists. reflexivity.
Qed.
Section Int.
Variable py_int : bytes -> result Z.
Lemma lyrics2_ok e : gives c (p_step_lyrics2 py_int e) (step_lyrics2 py_int c e).
Proof.
  unfold p_step_lyrics2, step_lyrics2. destruct (0 <=? e - 15)%Z; [|apply g_ret]. apply g_bind; [apply g_zread|]. intros foot. destruct (beqb _ _); [|apply g_ret]. apply g_bind; [apply g_lift|]. intros n. apply g_ret.
Qed.
Lemma lyrics1_ok e : gives c (p_step_lyrics1 e) (step_lyrics1 c e).
Proof.
  unfold p_step_lyrics1, step_lyrics1. destruct (0 <=? e - 9)%Z; [|apply g_ret]. apply g_bind; [apply g_zread|]. intros foot. destruct (beqb _ _); [|apply g_ret]. apply g_bind; [apply g_zread|]. intros d. destruct (find_sub _ _ _); [apply g_ret|apply g_raise].
Qed.
Lemma ape_ok e : gives c (p_step_ape e) (step_ape c e).
Proof.
  unfold p_step_ape, step_ape. destruct (Z.leb_spec 0 (e - 32)) as [L|L]; [|apply g_ret]. intros pos. rewrite run_bind, zread_at. set (p := Z.to_N (e - 32)). replace (e - 32)%Z with (Z.of_N p) by lia. change 8%Z with (Z.of_N 8). rewrite zread_n. cbn [bind fst snd].
  destruct (beqb (sub p 8 c) (bstr "APETAGEX")) eqn:E; [|rewrite run_ret; eexists; reflexivity]. apply beqb_true in E. rewrite E. change (lenN (bstr "APETAGEX")) with 8.
  rewrite run_bind, run_read. change 4%Z with (Z.of_N 4). rewrite read_at_pos. cbn [bind fst snd]. rewrite run_bind, run_lift. change 4 with (N.of_nat 4) at 1. rewrite unpack_sub. replace (Z.to_N (e - 24)) with (p + 8) by lia. replace (Z.to_N (e - 20)) with (p + 12) by lia.
  destruct (unpack 4 c (p + 8)) as [version|x] eqn:U; [|exists 0; reflexivity]. cbn [bind fst snd]. assert (B := unpack_ok_len _ _ _ _ U). change (N.of_nat 4) with 4 in B.
  rewrite run_bind, run_read, read_at_pos. rewrite lenN_sub. replace (N.min 4 (lenN c - (p + 8))) with 4 by lia. replace (p + 8 + 4) with (p + 12) by lia. cbn [bind fst snd]. rewrite run_bind, run_lift. change 4 with (N.of_nat 4) at 1. rewrite unpack_sub.
  destruct (unpack 4 c (p + 12)) as [size|x]; [|exists 0; reflexivity]. cbn [bind fst snd]. cbv zeta. rewrite run_ret. eexists. reflexivity.
Qed.
Lemma last_ok fuel current a b : gives c (p_last_id3_loop fuel (lenN c) current a b) (last_id3_loop fuel c current a b).
Proof.
  revert current a b. induction fuel as [|fuel IH]; intros current a b; [apply g_raise|]. cbn [p_last_id3_loop last_id3_loop]. destruct (current <? lenN c); [|apply g_ret].
  change (0x10000 + 3)%Z with (Z.of_N (0x10000 + 3)). generalize (0x10000 + 3). intros n. change (gives c (ask part <- p_zread (Z.of_N current) (Z.of_N n);
      let sync := Z.max (find_sync part 0) (Z.max (zfind (bstr "RIFF") part) (zfind (bstr "SRSF") part)) in
      let imatch := zrfind (bstr "ID3") part in
      let imatch := if (0 <? imatch)%Z then (imatch + Z.of_N current)%Z else imatch in
      let id3 := Z.max imatch b in
      let last_good := if ((a <? id3) && negb (sync =? -1) && (id3 <? Z.of_N current + sync))%Z then id3 else a in
      if (sync =? -1)%Z then p_last_id3_loop fuel (lenN c) (current + 0x10000) last_good id3 else Ret last_good)
     (do part <- Ok (sub current n c);
      let sync := Z.max (find_sync part 0) (Z.max (zfind (bstr "RIFF") part) (zfind (bstr "SRSF") part)) in
      let imatch := zrfind (bstr "ID3") part in
      let imatch := if (0 <? imatch)%Z then (imatch + Z.of_N current)%Z else imatch in
      let id3 := Z.max imatch b in
      let last_good := if ((a <? id3) && negb (sync =? -1) && (id3 <? Z.of_N current + sync))%Z then id3 else a in
      if (sync =? -1)%Z then last_id3_loop fuel c (current + 0x10000) last_good id3 else Ok last_good)).
  apply g_bind; [apply g_sub|]. intros part. cbv zeta. destruct (Z.max _ _ =? -1)%Z; [apply IH|apply g_ret].
Qed.
Lemma fuel_len : N.to_nat (lenN c) = length c.
Proof. rewrite lenN_length. apply Nat2N.id. Qed.
Lemma repair_ok ids begin : gives c (p_repair (lenN c) ids begin) (repair c ids begin).
Proof.
  unfold p_repair, repair, last_id3v2_before_sync. rewrite fuel_len. apply g_bind; [apply last_ok|]. intros l. cbv zeta. destruct (_ =? _)%Z; [apply g_ret|]. destruct (_ <=? _)%Z.
  - apply g_bind; [apply g_zread|]. intros s. apply g_bind; [apply g_lift|]. intros n. apply g_ret.
  - destruct (_ <? _)%Z; [|apply g_ret]. apply g_bind; [apply g_zread|]. intros s. apply g_bind; [apply g_lift|]. intros n. apply g_ret.
Qed.
Lemma srs_ok fuel cur stop : gives c (p_srs_loop fuel cur stop) (srs_loop fuel c cur stop).
Proof.
  revert cur. induction fuel as [|fuel IH]; intros cur; [apply g_raise|]. cbn [p_srs_loop srs_loop]. destruct (_ <? _)%Z; [|apply g_ret]. intros pos. rewrite run_bind, zread_at. change 4%Z with (Z.of_N 4). rewrite zread_n. cbn [bind fst snd]. rewrite N2Z.id. rewrite run_bind, run_read, read_at_pos. cbn [bind fst snd].
  assert (U : unpack 4 (sub (cur + lenN (sub cur 4 c)) 4 c) 0 = unpack 4 c (cur + 4)).
  { rewrite lenN_sub. destruct (N.le_gt_cases (cur + 4) (lenN c)) as [L|L].
    - replace (N.min 4 (lenN c - cur)) with 4 by lia. change 4 with (N.of_nat 4) at 2. apply unpack_sub.
    - change 4 with (N.of_nat 4) at 3. rewrite unpack_sub. unfold unpack. cbv zeta. rewrite !lenN_sub. change (N.of_nat 4) with 4. replace (_ =? 4) with false by lia. replace (_ =? 4) with false by lia. reflexivity. }
  rewrite U. destruct (unpack 4 c (cur + 4)) as [size|x]; [|exists 0; reflexivity]. cbv zeta. set (m := sub cur 4 c). destruct (forallb _ m); [|exists 0; reflexivity]. destruct (size =? 0); [exists 0; reflexivity|]. destruct (_ <? _)%Z; [exists 0; reflexivity|].
  match goal with |- exists q, run _ ?pos0 _ = _ => generalize pos0 end. apply g_bind; [apply IH|]. intros r. apply g_ret.
Qed.
Lemma blocks_ok : gives c (p_blocks py_int) (mp3_blocks py_int c).
Proof.
  intros pos. unfold p_blocks. rewrite run_bind, run_size. cbn [bind fst snd]. generalize (lenN c) at 1. revert pos. unfold mp3_blocks. rewrite !fuel_len. intros _. 
  match goal with |- forall pos0 : N, exists q, run _ pos0 ?p = bind ?x _ => change (gives c p x) end.
  apply g_bind; [apply id3_ok|]. intros [ids begin]. apply g_bind; [apply tag_ok|]. intros [b1 e1]. apply g_bind; [apply lyrics2_ok|]. intros [b2 e2]. apply g_bind; [apply lyrics1_ok|]. intros [b3 e3]. apply g_bind; [apply ape_ok|]. intros [b4 e4].
  change 4%Z with (Z.of_N 4) at 1. intros pos. rewrite run_bind, zread_at, zread_n. cbn [bind fst snd]. match goal with |- exists q, run _ ?pos0 _ = _ => generalize pos0 end. clear pos.
  match goal with |- forall pos0 : N, exists q, run _ pos0 ?p = bind ?x _ => change (gives c p x) end.
  apply g_bind. { destruct ids; [apply g_ret|]. destruct (marker_has_issues _); [apply repair_ok|apply g_ret]. }
  intros [ids' begin']. apply g_bind; [apply g_zread|]. intros [|m1 [|m2 mr]]; [apply g_raise|apply g_raise|]. apply g_bind; [|intros mn; apply g_ret]. destruct (beqb _ _); [apply srs_ok|apply g_ret].
Qed.
Lemma part_ok b n off : gives c (Mp3Prog.p_part b n off) (m_part c b n off).
Proof. unfold Mp3Prog.p_part, m_part. destruct (_ <? _)%Z; [apply g_raise|apply g_zread]. Qed.
Lemma match_ok fuel b sig o : gives c (p_match_loop fuel b sig o) (match_loop fuel c b sig o).
Proof.
  revert o. induction fuel as [|fuel IH]; intros o; [apply g_raise|]. cbn [p_match_loop match_loop]. destruct (_ <=? _)%Z; [|apply g_ret]. apply g_bind; [apply part_ok|]. intros d. destruct (find_sub _ _ _); [apply g_ret|apply IH].
Qed.
Lemma find_ok ts : gives c (p_mp3_find py_int ts) (mp3_find py_int ts c).
Proof.
  unfold p_mp3_find, mp3_find, match_signature. apply g_bind; [apply blocks_ok|]. intros bs. destruct (find is_audio bs) as [b|]; [|apply g_ret]. apply g_bind; [apply g_lift|]. intros t. cbv zeta. destruct (_ <? _)%Z; [apply g_raise|]. apply g_bind; [apply part_ok|]. intros d.
  apply g_bind; [|intros t'; apply g_ret]. destruct (beqb _ _); [apply g_ret|]. destruct (2 <=? lenN d); [|apply g_ret]. destruct (starts_sync d); [apply g_ret|]. apply g_bind; [apply match_ok|]. intros [o|]; apply g_ret.
Qed.
Lemma extract_ok ts : gives c (p_mp3_extract py_int ts) (mp3_extract py_int ts c).
Proof.
  unfold p_mp3_extract, mp3_extract. apply g_bind; [apply blocks_ok|]. intros bs. destruct (find is_audio bs) as [b|]; [|apply g_ret]. apply g_bind; [apply g_lift|]. intros t. cbv zeta. destruct (_ <? _)%Z; [apply g_raise|]. apply g_bind; [apply part_ok|]. intros d. apply g_ret.
Qed.
End Int.
End Gives.
Theorem mp3_restore_same py_int f path archived main srs : movie f path archived main -> mp3_restore_at py_int f srs path archived = mp3_restore py_int srs main.
Proof.
  intros M. apply StrmProgFacts.rebuild_ext; intros ts; rewrite (open_same f path archived main _ M).
  - destruct (find_ok main py_int ts 0) as (q & ->). now destruct (mp3_find py_int ts main).
  - destruct (extract_ok main py_int ts 0) as (q & ->). now destruct (mp3_extract py_int ts main).
Qed.
