(** FlacProgFacts: the code of FlacProg.v on a file gives what Flac.v says. *)
From Verif Require Import Base BaseFacts SrsRec Srs SrrFacts Flac FlacProg StreamSpec Prog ProgSpec ProgFacts AviProgFacts.
From Verif Require StrmProgFacts.

Lemma next_ok c pos :
  exists q, run (flat_op c) pos (p_next (lenN c)) = do b <- flac_next c pos; Ok (b, match b with Some b => f_start b | None => q end).
Proof.
  unfold p_next, flac_next. exists pos. rewrite run_bind, run_tell. cbn [bind fst snd]. destruct (pos =? lenN c); [reflexivity|].
  rewrite run_bind, run_read. cbn [bind fst snd]. change 4%Z with (Z.of_N 4). rewrite read_at_pos. set (h := sub pos 4 c). cbv zeta.
  destruct (beqb h (bstr "fLaC")); [rewrite run_bind, run_start; reflexivity|]. destruct (beqb (takeN 3 h) (bstr "ID3")).
  { rewrite run_bind, run_start. cbn [bind fst snd]. rewrite run_bind, run_read. change 10%Z with (Z.of_N 10). rewrite read_at_pos. cbn [bind fst snd]. rewrite run_bind, run_lift. destruct (decode_id3_size _) as [size|x]; [|reflexivity]. cbn [bind fst snd]. rewrite run_bind, run_start. reflexivity. }
  destruct (beqb (takeN 3 h) (bstr "TAG")); [rewrite run_bind, run_start; reflexivity|]. destruct h as [|t r]; [reflexivity|].
  rewrite run_bind. match goal with |- context [run (flat_op c) (pos + lenN (t :: r)) ?p] => set (P := p) end. match goal with |- _ = (do a <- (do r <- ?x; _); _) => set (X := x) end.
  assert (R : exists q, run (flat_op c) (pos + lenN (t :: r)) P = do r <- X; Ok (r, q)).
  { subst P X. destruct (b2n t =? 255).
    - rewrite run_bind, run_seek. cbv zeta. rewrite Z.add_0_l. destruct (N.ltb_spec (lenN c) 128) as [L|L].
      + replace (Z.of_N (lenN c) - 128 <? 0)%Z with true by lia. exists 0. reflexivity.
      + replace (Z.of_N (lenN c) - 128 <? 0)%Z with false by lia. cbn [bind fst snd]. rewrite run_bind, run_read. change 3%Z with (Z.of_N 3). rewrite read_at_pos. cbn [bind fst snd]. replace (Z.to_N (Z.of_N (lenN c) - 128)) with (lenN c - 128) by lia. rewrite run_ret. eexists. reflexivity.
    - rewrite run_bind, run_lift. destruct (unpack_be 4 (x00 :: r) 0) as [n|x]; [eexists|exists 0]; reflexivity. }
  destruct R as (q & R). rewrite R. destruct X as [b|x] eqn:E; [|reflexivity]. cbn [bind fst snd]. destruct (_ <? _)%Z; [reflexivity|]. rewrite run_bind, run_start. cbn [bind fst snd].
  assert (S : f_start b = pos).
  { subst X. destruct (b2n t =? 255); [destruct (lenN c <? 128); [discriminate|]; apply ok_inj in E; now subst b|]. destruct (unpack_be 4 (x00 :: r) 0) as [n|x]; [|discriminate]. cbn [bind] in E. apply ok_inj in E. now subst b. }
  now rewrite S.
Qed.
(** what is read next is not in front of the file *)
Lemma next_end c pos b : flac_next c pos = Ok (Some b) -> (0 <= Z.of_N (f_data b) + f_size b)%Z.
Proof.
  unfold flac_next, f_data. destruct (pos =? lenN c); [discriminate|]. cbv zeta. set (h := sub pos 4 c). destruct (beqb h (bstr "fLaC")); [intros H; apply ok_inj, some_inj in H; subst b; cbn [f_start f_header f_size]; lia|].
  destruct (beqb (takeN 3 h) (bstr "ID3")); [intros H; bindinv H; apply ok_inj, some_inj in H; subst b; cbn [f_start f_header f_size]; lia|].
  destruct (beqb (takeN 3 h) (bstr "TAG")); [intros H; apply ok_inj, some_inj in H; subst b; cbn [f_start f_header f_size]; lia|].
  destruct h as [|t r] eqn:Eh; [discriminate|]. destruct (b2n t =? 255).
  - destruct (N.ltb_spec (lenN c) 128) as [L|L]; [discriminate|]. cbn [bind f_size]. destruct (_ <? _)%Z; [discriminate|]. intros H. apply ok_inj, some_inj in H. subst b. cbn [f_start f_header f_size lenN].
    assert (B : lenN h = N.min 4 (lenN c - pos)) by (unfold h; apply lenN_sub). rewrite Eh, lenN_cons in B. destruct (beqb _ _); lia.
  - intros H. match type of H with (bind (bind ?x _) _) = _ => destruct x as [n|x0]; [|discriminate] end. cbn [bind f_size] in H. destruct (_ <? _)%Z; [discriminate|]. apply ok_inj, some_inj in H. subst b. cbn [f_start f_header f_size]. lia.
Qed.
Lemma here c pos n : run (flat_op c) pos (p_seek (Z.of_N n) FromHere) = Ok (tt, pos + n).
Proof. rewrite run_seek. cbv zeta. replace (Z.of_N pos + Z.of_N n <? 0)%Z with false by lia. do 2 f_equal. lia. Qed.
Lemma contents_ok c b : run (flat_op c) (f_start b) (p_contents b) = Ok (f_contents c b, f_data b + lenN (f_contents c b)).
Proof. unfold p_contents. rewrite run_bind, here. cbn [bind fst snd]. apply run_read. Qed.
Lemma skip_ok c b pos : (0 <= Z.of_N (f_data b) + f_size b)%Z -> run (flat_op c) pos (p_skip b) = Ok (tt, Z.to_N (Z.of_N (f_data b) + f_size b)).
Proof. intros H. unfold p_skip. rewrite run_seek. cbv zeta. rewrite Z.add_0_l. now replace (Z.of_N (f_data b) + f_size b <? 0)%Z with false by lia. Qed.
Lemma part_ok c b n pos : run (flat_op c) pos (p_part b (Z.of_N n)) = Ok (sub (f_data b) n c, pos).
Proof.
  unfold p_part. rewrite run_bind, run_tell. cbn [bind fst snd]. rewrite run_bind.
  assert (R : run (flat_op c) pos (if pos =? f_start b then Ret tt else p_seek (Z.of_N (f_start b)) FromStart) = Ok (tt, f_start b)).
  { destruct (N.eqb_spec pos (f_start b)) as [->|]; [apply run_ret|apply run_start]. }
  rewrite R. cbn [bind fst snd]. rewrite run_bind, here. cbn [bind fst snd]. rewrite run_bind, run_read, read_at_pos. cbn [bind fst snd]. rewrite run_bind, run_start. reflexivity.
Qed.
Definition left_at (c : bytes) (b : fblock) (m : move) (q : N) : N :=
  match m with Skip => Z.to_N (Z.of_N (f_data b) + f_size b) | ReadOn => f_data b + lenN (f_contents c b) | Stop => q end.
Definition act_ok {S} (c : bytes) (act : S -> fblock -> result (S * move)) (pact : S -> fblock -> prog (S * bool)) : Prop :=
  forall s b, (0 <= Z.of_N (f_data b) + f_size b)%Z ->
    exists q, run (flat_op c) (f_start b) (pact s b) = do r <- act s b; Ok ((fst r, match snd r with Stop => true | _ => false end), left_at c b (snd r) q).
Lemma run_ok {S} c (act : S -> fblock -> result (S * move)) pact s : act_ok c act pact -> (do r <- run (flat_op c) 0 (p_run pact s); Ok (fst r)) = flac_read act c s.
Proof.
  intros A. unfold p_run, flac_read. rewrite run_bind, run_size. cbn [bind fst snd]. rewrite run_bind. change 0%Z with (Z.of_N 0). rewrite run_start. cbn [bind fst snd].
  replace (3 + N.to_nat (lenN c))%nat with (3 + length c)%nat by (rewrite lenN_length; now rewrite Nat2N.id). generalize (3 + length c)%nat, 0. intros fuel. revert s.
  induction fuel as [|fuel IH]; intros s pos; [reflexivity|]. cbn [p_loop flac_loop]. rewrite run_bind. destruct (next_ok c pos) as (q & ->). destruct (flac_next c pos) as [[b|]|x] eqn:E; cbn [bind fst snd]; [|reflexivity|reflexivity].
  rewrite run_bind. destruct (A s b (next_end c pos b E)) as (q2 & ->). destruct (act s b) as [[s' m]|x]; [|reflexivity]. cbn [bind fst snd]. destruct m; cbn [left_at]; try apply IH. reflexivity.
Qed.
Lemma find_ok c : act_ok c (ffind_step c) p_find_step.
Proof.
  intros ts b H. unfold ffind_step, p_find_step. destruct (is_frame_data b); [|rewrite run_bind, skip_ok by exact H; exists 0; reflexivity].
  rewrite run_bind, run_lift. destruct (get_track 1 ts) as [t|x]; [|exists 0; reflexivity]. cbn [bind fst snd]. destruct (f_size b <? 0)%Z; [exists 0; reflexivity|]. cbv zeta. rewrite run_bind, part_ok. cbn [bind fst snd].
  destruct (beqb _ _); [eexists; reflexivity|]. rewrite run_bind, skip_ok by exact H. exists 0. reflexivity.
Qed.
Lemma extract_ok c : act_ok c (fextract_step c) p_extract_step.
Proof.
  intros ts b H. unfold fextract_step, p_extract_step. destruct (is_frame_data b); [|rewrite run_bind, skip_ok by exact H; exists 0; reflexivity].
  rewrite run_bind, run_lift. destruct (get_track 1 ts) as [t|x]; [|exists 0; reflexivity]. cbn [bind fst snd]. rewrite run_bind, contents_ok. exists 0. reflexivity.
Qed.
Theorem flac_restore_same f path archived main srs : movie f path archived main -> flac_restore_at f srs path archived = flac_restore srs main.
Proof.
  intros M. apply StrmProgFacts.rebuild_ext; intros ts; rewrite (open_same f path archived main _ M).
  - apply run_ok, find_ok.
  - apply run_ok, extract_ok.
Qed.
