(** AviProgFacts: the code of AviProg.v on a file gives what Avi.v says. *)
From Verif Require Import Base BaseFacts SrsRec Srs SrrFacts Avi AviProg StreamSpec Prog ProgSpec ProgFacts.

Lemma read_at_pos c pos n : read_at c pos (Z.of_N n) = sub pos n c.
Proof. unfold read_at. replace (Z.of_N n <? 0)%Z with false by lia. now rewrite N2Z.id. Qed.
Ltac step := repeat (first [rewrite run_bind | rewrite run_tell | rewrite run_read | rewrite run_ret | rewrite run_raise | rewrite run_lift]; cbn [bind fst snd]); cbn [bind fst snd].

(** what is known of a chunk that has been read *)
Definition seen (c : bytes) (h : chunk) : Prop :=
  c_data h <= lenN c /\ (-4 <= c_length h)%Z /\ 8 <= c_data h /\ (match c_kind h with List_of _ => True | _ => 0 <= c_length h end)%Z.
Lemma next_ok c check pos : run (flat_op c) pos (p_next check (lenN c)) =
  do o <- riff_next check c pos; Ok (o, match o with Some h => c_data h | None => pos end).
Proof.
  unfold p_next, riff_next. step. destruct (N.ltb_spec (lenN c) (pos + 8)) as [H|H]; [reflexivity|]. step.
  change 8%Z with (Z.of_N 8). rewrite read_at_pos. assert (L : lenN (sub pos 8 c) = 8) by (unfold sub; rewrite lenN_takeN, lenN_dropN; lia). rewrite L.
  set (cc := takeN 4 (sub pos 8 c)). destruct (unpack 4 (sub pos 8 c) 4) as [n|e]; [|reflexivity]. step.
  destruct (negb (valid_fourcc cc)); [reflexivity|]. destruct (check && negb (beqb cc (bstr "RIFF")) && (lenN c <? pos + 8 + n)); [reflexivity|].
  destruct (beqb cc (bstr "RIFF") || beqb cc (bstr "LIST")).
  - step. change 4%Z with (Z.of_N 4). rewrite read_at_pos. do 2 f_equal. unfold c_data. cbn [c_start c_header].
    rewrite lenN_app, L. lia.
  - step. do 2 f_equal. unfold c_data. cbn [c_start c_header]. now rewrite L.
Qed.
Lemma next_seen c check pos h : riff_next check c pos = Ok (Some h) -> seen c h.
Proof.
  unfold riff_next. destruct (N.ltb_spec (lenN c) (pos + 8)) as [H|H]; [discriminate|].
  assert (L : lenN (sub pos 8 c) = 8) by (unfold sub; rewrite lenN_takeN, lenN_dropN; lia).
  set (cc := takeN 4 (sub pos 8 c)). destruct (unpack 4 (sub pos 8 c) 4) as [n|e]; [|discriminate]. cbn [bind].
  destruct (negb (valid_fourcc cc)); [discriminate|]. destruct (check && negb (beqb cc (bstr "RIFF")) && (lenN c <? pos + 8 + n)); [discriminate|].
  destruct (beqb cc (bstr "RIFF") || beqb cc (bstr "LIST")).
  - intros G. injection G as <-. unfold seen, c_data. cbn [c_start c_header c_length c_kind]. rewrite lenN_app, L. unfold sub at 1 2. rewrite lenN_takeN, lenN_dropN. split; [lia|split; [lia|split; [lia|exact I]]].
  - intros G. injection G as <-. unfold seen, c_data. cbn [c_start c_header c_length c_kind]. rewrite L. split; [lia|split; [lia|split; [lia|]]].
    match goal with |- match ?x with _ => _ end => destruct x end; [exact I|lia|lia|lia].
Qed.
Lemma pad_ok c h pos : run (flat_op c) pos (p_pad h) = riff_pad c h pos.
Proof.
  unfold p_pad, riff_pad. destruct (has_padding h); [|reflexivity]. step. change 1%Z with (Z.of_N 1). rewrite read_at_pos.
  assert (lenN (sub pos 1 c) <= 1) by (unfold sub; rewrite lenN_takeN; lia).
  destruct (sub pos 1 c) as [|x l]; [reflexivity|]. rewrite run_ret. do 2 f_equal. rewrite lenN_cons in *. lia.
Qed.
(** the contents, and where it is then *)
Lemma contents_ok c h : run (flat_op c) (c_data h) (p_contents false h) = do r <- riff_read false c h; Ok (fst (fst r), snd r).
Proof.
  unfold p_contents, riff_read, riff_contents. cbn [andb]. step. rewrite pad_ok. destruct (riff_pad c h _) as [[p q]|e]; reflexivity.
Qed.
Lemma read_bound c h : lenN (riff_contents c h) <= lenN c - c_data h.
Proof. unfold riff_contents, read_at. destruct (c_length h <? 0)%Z; unfold sub; rewrite ?lenN_takeN, lenN_dropN; lia. Qed.
Lemma again_ok c h r : seen c h -> (0 <= c_length h)%Z -> riff_read false c h = Ok r ->
  run (flat_op c) (snd r) (p_contents true h) = do d <- riff_again c h; Ok (d, snd r).
Proof.
  intros (D & _) P R. unfold riff_read in R. cbn [andb] in R. destruct (riff_pad c h (c_data h + lenN (riff_contents c h))) as [[pd q]|e] eqn:H; [|discriminate]. injection R as <-. cbn [fst snd].
  unfold riff_pad in H. unfold p_contents, riff_again. cbv zeta. pose proof (read_bound c h) as B. set (n := lenN (riff_contents c h)) in *.
  assert (B2 : n <= Z.to_N (c_length h)).
  { unfold n, riff_contents, read_at. replace (c_length h <? 0)%Z with false by lia. unfold sub. rewrite lenN_takeN. lia. }
  set (k := if has_padding h then 1 else 0). assert (Q : q = c_data h + n + k /\ (k = 1 -> q <= lenN c)).
  { unfold k. destruct (has_padding h).
    - destruct (sub (c_data h + n) 1 c) as [|x l] eqn:E; [discriminate|]. injection H as _ <-. split; [reflexivity|]. intros _.
      assert (lenN (sub (c_data h + n) 1 c) <> 0) by (rewrite E, lenN_cons; lia). unfold sub in *. rewrite lenN_takeN, lenN_dropN in *. lia.
    - injection H as _ <-. split; [lia|lia]. }
  destruct Q as [-> Q]. step. rewrite run_seek. cbv zeta. replace (- c_length h - (if has_padding h then 1 else 0))%Z with (- c_length h - Z.of_N k)%Z by (unfold k; destruct (has_padding h); lia).
  replace (Z.of_N (c_data h + n + k) + (- c_length h - Z.of_N k))%Z with (Z.of_N (c_data h + n) - c_length h)%Z by lia.
  destruct (Z.ltb_spec (Z.of_N (c_data h + n) - c_length h) 0) as [X|X]; [reflexivity|]. cbn [bind fst snd]. step. rewrite pad_ok.
  set (a := Z.to_N (Z.of_N (c_data h + n) - c_length h)).
  assert (La : lenN (read_at c a (c_length h)) = Z.to_N (c_length h)).
  { unfold read_at. replace (c_length h <? 0)%Z with false by lia. unfold sub. rewrite lenN_takeN, lenN_dropN. unfold a. lia. }
  replace (a + lenN (read_at c a (c_length h))) with (c_data h + n) by (rewrite La; unfold a; lia). unfold riff_pad. rewrite H. cbn [bind fst snd]. rewrite run_ret. reflexivity.
Qed.
Lemma skip_ok c h : seen c h -> run (flat_op c) (c_data h) (p_skip h) = do p <- riff_skip false c h; Ok (tt, snd p).
Proof.
  intros (D & L & E & _). unfold p_skip, riff_skip. cbn [andb]. step. rewrite run_seek. cbv zeta. replace (Z.of_N (c_data h) + c_length h <? 0)%Z with false by lia. cbn [bind fst snd].
  rewrite run_bind, pad_ok. destruct (riff_pad c h _) as [[p q]|e]; reflexivity.
Qed.

(** ** The loop *)
Definition act_ok {S} (c : bytes) (act : S -> chunk -> result (S * option N)) (pact : S -> chunk -> prog (S * bool)) : Prop :=
  forall s h, seen c h -> match act s h with
                          | Ok (s', Some p) => run (flat_op c) (c_data h) (pact s h) = Ok ((s', true), p)
                          | Ok (s', None) => exists q, run (flat_op c) (c_data h) (pact s h) = Ok ((s', false), q)
                          | Err e => run (flat_op c) (c_data h) (pact s h) = Err e
                          end.
Lemma loop_ok {S} c check stop (act : S -> chunk -> result (S * option N)) pact : act_ok c act pact -> forall fuel pos s,
  (do r <- run (flat_op c) pos (p_loop fuel check (lenN c) stop pact s); Ok (fst r)) = riff_loop fuel check stop act c pos s.
Proof.
  intros A. induction fuel as [|fuel IH]; intros pos s; [reflexivity|]. cbn [p_loop riff_loop]. rewrite run_bind, next_ok.
  destruct (riff_next check c pos) as [[h|]|e] eqn:E; cbn [bind fst snd]; [|reflexivity|reflexivity].
  destruct (stop s); [reflexivity|]. pose proof (A s h (next_seen _ _ _ _ E)) as G. rewrite run_bind. destruct (act s h) as [[s' [p|]]|e].
  - rewrite G. cbn [bind fst snd]. apply IH.
  - destruct G as [q G]. rewrite G. reflexivity.
  - rewrite G. reflexivity.
Qed.
Lemma run_loop {S A} c check stop (act : S -> chunk -> result (S * option N)) pact (k : S -> prog A) pos s : act_ok c act pact ->
  (forall x, exists r, k x = Ret r) ->
  (do r <- run (flat_op c) pos (pbind (p_loop (1 + N.to_nat (lenN c)) check (lenN c) stop pact s) k); Ok (fst r)) =
  do x <- riff_run check stop act c pos s; do r <- run (flat_op c) 0 (k x); Ok (fst r).
Proof.
  intros H K. unfold riff_run. rewrite <- (loop_ok c check stop act pact H). replace (1 + length c)%nat with (1 + N.to_nat (lenN c))%nat by (rewrite lenN_length; now rewrite Nat2N.id). rewrite run_bind. destruct (run _ pos _) as [[x q]|e]; [|reflexivity].
  cbn [bind fst snd]. destruct (K x) as [r ->]. reflexivity.
Qed.

(** ** The steps *)
Lemma index_ok c : act_ok c (index_step c) p_index_step.
Proof.
  intros s h S. unfold index_step, p_index_step. destruct (cc_is (bstr "AVI ") h); [destruct (c_kind h); reflexivity|].
  destruct (cc_is (bstr "movi") h).
  - rewrite run_bind, skip_ok by exact S. destruct (riff_skip false c h); reflexivity.
  - destruct (c_kind h); try (rewrite run_bind, skip_ok by exact S; destruct (riff_skip false c h); reflexivity).
    rewrite run_bind, contents_ok. destruct (riff_read false c h) as [[[d p] q]|e]; [|reflexivity]. cbn [bind fst snd]. eexists. reflexivity.
Qed.
Lemma find_ok c : act_ok c (find_step c) p_find_step.
Proof.
  intros [[ts checks] done] h S. unfold find_step, p_find_step. destruct (c_kind h) as [ty|n| |] eqn:K; [reflexivity| | |];
    try (rewrite run_bind, skip_ok by exact S; destruct (riff_skip false c h); reflexivity).
  rewrite run_bind, run_lift. destruct (get_track n (with_new n ts)) as [t|e]; [|reflexivity]. cbn [bind fst snd].
  assert (P : (0 <= c_length h)%Z) by (destruct S as (_ & _ & _ & X); now rewrite K in X).
  rewrite run_bind. unfold p_find_chunk, find_chunk, reads_chunk. set (check := checks n). set (sig := td_signature (t_td t)).
  destruct ((t_offset t =? 0)%Z || (lenN check <? lenN sig)) eqn:E1; cbn [andb].
  2:{ rewrite run_bind, skip_ok by exact S. destruct (riff_skip false c h); [|reflexivity]. cbn [bind fst snd]. destruct (t_match t <? td_length (t_td t)); reflexivity. }
  destruct (negb (lenN sig =? 0)) eqn:E2; cbn [andb].
  2:{ rewrite run_bind, skip_ok by exact S. destruct (riff_skip false c h); reflexivity. }
  destruct ((0 <? lenN check) && (lenN check <? lenN sig)) eqn:E3.
  - replace ((lenN check =? 0) || (lenN check <? lenN sig)) with true by lia. rewrite run_bind, run_bind, contents_ok.
    destruct (riff_read false c h) as [r|e] eqn:R; [|reflexivity]. cbn [bind fst snd]. destruct r as [[buff pd] q] eqn:Er. cbn [bind fst snd].
    assert (Eb : buff = riff_contents c h).
    { unfold riff_read in R. cbn [andb] in R. destruct (riff_pad c h _); [|discriminate]. now injection R as <- _ _. }
    rewrite Eb. set (more := check ++ _). destruct (starts_with Byte.eqb more sig).
    + rewrite run_ret. cbn [bind fst snd]. destruct more as [|x l] eqn:Em.
      * unfold more in Em. apply app_eq_nil in Em as [Em _]. rewrite Em in E3. discriminate.
      * reflexivity.
    + rewrite run_ret. cbn [bind fst snd]. rewrite run_bind. pose proof (again_ok c h (buff, pd, q) S P R) as G. cbn [snd] in G. rewrite G.
      destruct (riff_again c h) as [d|e]; [|reflexivity]. cbn [bind fst snd]. change (td_signature (t_td (located t 0 0))) with sig. destruct (find_start sig d 0) as [[pos k]|]; reflexivity.
  - rewrite run_bind, run_ret. cbn [bind fst snd]. destruct check as [|x l] eqn:Ec.
    + replace ((lenN (@nil byte) =? 0) || (lenN (@nil byte) <? lenN sig)) with true by reflexivity. rewrite run_bind, contents_ok.
      destruct (riff_read false c h) as [[[buff pd] q]|e] eqn:R; [|reflexivity]. cbn [bind fst snd].
      assert (Eb : buff = riff_contents c h).
      { unfold riff_read in R. cbn [andb] in R. destruct (riff_pad c h _); [|discriminate]. now injection R as <- _ _. }
      rewrite Eb. destruct (find_start sig (riff_contents c h) 0) as [[pos k]|]; reflexivity.
    + replace ((lenN (x :: l) =? 0) || (lenN (x :: l) <? lenN sig)) with false by (rewrite lenN_cons in *; lia).
      rewrite run_bind, skip_ok by exact S. destruct (riff_skip false c h); reflexivity.
Qed.
Lemma extract_ok c : act_ok c (extract_step c) p_extract_step.
Proof.
  intros [ts done] h S. unfold extract_step, p_extract_step. destruct (c_kind h) as [ty|n| |]; [reflexivity| | |];
    try (rewrite run_bind, skip_ok by exact S; destruct (riff_skip false c h); reflexivity).
  rewrite run_bind, run_lift. destruct (get_track n (with_new n ts)) as [t|e]; [|reflexivity]. cbn [bind fst snd].
  destruct (t_offset t <? Z.of_N (c_data h) + c_length h)%Z.
  - rewrite run_bind. destruct (lenN _ <? td_length (t_td t)); rewrite run_bind.
    + rewrite contents_ok. destruct (riff_read false c h) as [[[d p] q]|e]; [|reflexivity]. cbn [bind fst snd]. reflexivity.
    + rewrite skip_ok by exact S. destruct (riff_skip false c h); reflexivity.
  - rewrite run_bind, skip_ok by exact S. destruct (riff_skip false c h); reflexivity.
Qed.

(** ** Opening *)
Lemma valid_ok c pos o : run (flat_op c) pos (p_valid o) = Ok (valid_location c o, o + lenN (sub o 4 c)).
Proof. unfold p_valid. rewrite run_bind, run_start. cbn [bind fst snd]. step. change 4%Z with (Z.of_N 4). now rewrite read_at_pos. Qed.
Lemma offset_ok c pos m : (do r <- run (flat_op c) pos (p_find_chunk_offset (lenN c) m); Ok (fst r)) = find_chunk_offset c m.
Proof.
  unfold p_find_chunk_offset, find_chunk_offset. rewrite run_bind. change 0%Z with (Z.of_N 0). rewrite run_start. cbn [bind fst snd]. rewrite run_bind.
  pose proof (loop_ok c false never _ _ (index_ok c) (1 + N.to_nat (lenN c)) 0 ([], 0)) as G. unfold riff_run.
  replace (1 + length c)%nat with (1 + N.to_nat (lenN c))%nat by (rewrite lenN_length; now rewrite Nat2N.id). rewrite <- G. clear G.
  destruct (run (flat_op c) 0 _) as [[s q]|e]; [|reflexivity]. cbn [bind fst snd].
  destruct ((snd s =? 0) || (lenN (fst s) =? 0)); [reflexivity|]. rewrite run_bind, run_lift. destruct (index_offsets _ _ _ _ _ _) as [os|e]; [|reflexivity]. cbn [bind fst snd].
  set (second := match find (fun o => o <? m) os with Some o => pbind (p_valid o) _ | None => _ end).
  assert (Q : forall pos, (do r <- run (flat_op c) pos second; Ok (fst r)) = Ok (match find (fun o => o <? m) os with Some o => if valid_location c o then o else 0 | None => 0 end)).
  { intros p. unfold second. destruct (find (fun o => o <? m) os) as [o|]; [|reflexivity]. now rewrite run_bind, valid_ok. }
  destruct (find (fun o => snd s + 8 + o <? m) os) as [o|]; [|apply Q]. rewrite run_bind, valid_ok. cbn [bind fst snd]. destruct (valid_location c (snd s + 8 + o)); [reflexivity|apply Q].
Qed.
Lemma open_ok c m : run (flat_op c) 0 (p_open m) = do p <- riff_start c m; Ok (lenN c, p).
Proof.
  unfold p_open, riff_start. rewrite run_bind, run_size. cbn [bind fst snd]. rewrite run_bind. destruct ((8 <=? m) && (m <? lenN c)) eqn:E.
  - rewrite run_bind, valid_ok. cbn [bind fst snd]. destruct (valid_location c (m - 8)).
    + replace (Z.of_N m - 8)%Z with (Z.of_N (m - 8)) by lia. rewrite run_start. reflexivity.
    + rewrite run_bind. rewrite <- (offset_ok c (m - 8 + lenN (sub (m - 8) 4 c)) m). destruct (run (flat_op c) _ (p_find_chunk_offset (lenN c) m)) as [[o q]|e]; [|reflexivity]. cbn [bind fst snd].
      destruct (o <? m); [|reflexivity]. rewrite run_start. reflexivity.
  - destruct (lenN c <=? m); [reflexivity|]. change 0%Z with (Z.of_N 0). rewrite run_start. reflexivity.
Qed.

Theorem avi_find_same f path archived main ts : movie f path archived main -> lenN main <> 0 -> open_run f path archived (p_avi_find ts) = avi_find ts main.
Proof.
  intros M NE. rewrite (open_same f path archived main _ M). unfold p_avi_find, avi_find. rewrite run_bind, open_ok.
  assert (E : riff_start main 0 = Ok 0) by (unfold riff_start; cbn [N.leb N.compare andb]; replace (lenN main <=? 0) with false by lia; reflexivity). rewrite E. cbn [bind fst snd].
  rewrite (run_loop main false fs_done _ _ _ 0 _ (find_ok main)) by (intros x; eexists; reflexivity). destruct (riff_run _ _ _ _ _ _); reflexivity.
Qed.
Theorem avi_extract_same f path archived main ts : movie f path archived main -> open_run f path archived (p_avi_extract ts) = avi_extract ts main.
Proof.
  intros M. rewrite (open_same f path archived main _ M). unfold p_avi_extract, avi_extract. rewrite run_bind, open_ok.
  destruct (riff_start main (min_offset ts)) as [p|e]; [|reflexivity]. cbn [bind fst snd].
  rewrite (run_loop main false snd _ _ _ p _ (extract_ok main)) by (intros x; eexists; reflexivity). destruct (riff_run _ _ _ _ _ _); reflexivity.
Qed.
