(** WmvProgFacts: the code of WmvProg.v on a file gives what Wmv.v says. *)
From Verif Require Import Base BaseFacts SrsRec Srs SrrFacts Avi Wmv WmvProg StreamSpec Prog ProgSpec ProgFacts AviProgFacts.
From Verif Require StrmProgFacts.

Lemma next_ok m c pos : m = Main \/ m = Sample ->
  run (flat_op c) pos (p_next m (lenN c)) = do o <- asf_next m c pos; Ok (o, pos).
Proof.
  intros Hm. unfold p_next, asf_next. rewrite run_bind, run_tell. cbn [bind fst snd]. destruct (lenN c <? pos + 24); [reflexivity|].
  rewrite run_bind, run_read. cbn [bind fst snd]. change 24%Z with (Z.of_N 24). rewrite read_at_pos.
  set (h := sub pos 24 c). destruct (N.lt_ge_cases (lenN h) 24) as [L|L].
  - replace (unpack 8 h 16) with (@Err N StructError); [rewrite run_bind, run_lift; reflexivity|]. unfold unpack. change (N.of_nat 8) with 8. rewrite lenN_sub. now replace (N.min 8 (lenN h - 16) =? 8) with false by lia.
  - assert (Lh : lenN h = 24) by (unfold h in *; rewrite lenN_sub in *; lia). rewrite Lh.
    rewrite run_bind, run_lift. destruct (unpack 8 h 16) as [size|x]; [|reflexivity]. cbn [bind fst snd].
    set (bad := match m with Sample => _ | _ => _ end). destruct bad; [reflexivity|]. replace (is_stored m) with false by (destruct Hm as [-> | ->]; reflexivity). cbn [andb bind].
    rewrite run_bind. set (more := if beqb _ HEADER_OBJECT then sub (pos + 24) 6 c else _).
    assert (R : exists q, run (flat_op c) (pos + 24) (if beqb (takeN 16 h) HEADER_OBJECT then p_read 6 else if beqb (takeN 16 h) DATA_OBJECT then p_read 26 else Ret []) = Ok (more, q)).
    { unfold more. destruct (beqb (takeN 16 h) HEADER_OBJECT); [|destruct (beqb (takeN 16 h) DATA_OBJECT)]; [change 6%Z with (Z.of_N 6)|change 26%Z with (Z.of_N 26)|]; rewrite ?run_read, ?read_at_pos; eexists; reflexivity. }
    destruct R as (q & R). rewrite R. cbn [bind fst snd]. rewrite run_bind, run_start. reflexivity.
Qed.
Lemma next_at m c pos o : m = Main \/ m = Sample -> asf_next m c pos = Ok (Some o) -> o_start o = pos.
Proof.
  intros Hm. unfold asf_next. destruct (_ <? _); [discriminate|]. intros H. bindinv H. destruct (match m with Sample => _ | _ => _ end); [discriminate|]. replace (is_stored m) with false in H by (destruct Hm as [-> | ->]; reflexivity). cbn [andb] in H.
  apply ok_inj in H. apply some_inj in H. now subst o.
Qed.
Lemma skip_ok c o rd pos : (rd = true -> pos = asf_skip o) -> run (flat_op c) pos (p_skip o rd) = Ok (tt, asf_skip o).
Proof. intros H. unfold p_skip. destruct rd; [rewrite run_ret; now rewrite H|]. apply run_start. Qed.

(** ** Packets *)
Lemma packet_size_is d p k : get_packet false d p = Ok k -> (5 <= p)%Z /\ Z.of_N (lenN d) = p.
Proof.
  unfold get_packet. intros H. bindinv H. destruct (negb _); [discriminate|]. destruct (Z.ltb_spec p 5) as [|G]; [discriminate|]. bindinv H. bindinv H. destruct (_ <? _)%Z; [discriminate|]. cbn [negb andb] in H.
  destruct (Z.eqb_spec (Z.of_N (lenN d)) p) as [Q|Q]; [|discriminate]. split; [exact G|exact Q].
Qed.
Lemma packets_ok {S} c exact (act : S -> N -> bytes -> parsed -> result (S * bool)) o psize : forall fuel n off s rd pos,
  n = 0 \/ (Z.of_N off + Z.of_N n * psize <= Z.of_N (asf_skip o))%Z -> (rd = true -> pos = asf_skip o /\ off = asf_skip o) ->
  exists b q, run (flat_op c) pos (p_packets fuel exact act o psize n off rd s) = (do r <- packets fuel exact act c psize n off s; Ok ((r, b), q)) /\ (b = true -> q = asf_skip o).
Proof.
  induction fuel as [|fuel IH]; intros n off s rd pos Hn Hr; [exists false, 0; split; [reflexivity|discriminate]|]. cbn [p_packets packets].
  destruct (N.eqb_spec n 0) as [->|Nn]; [exists rd, pos; split; [reflexivity|]; intros E; now apply Hr|]. destruct Hn as [Hn|Hn]; [congruence|].
  cbv zeta. rewrite run_bind, run_start. cbn [bind fst snd]. rewrite run_bind. unfold p_read_n, read_n. destruct (psize <? -1)%Z; [exists false, 0; split; [reflexivity|discriminate]|].
  rewrite run_read. cbn [bind fst snd]. set (data := read_at c off psize). destruct (exact && _); [exists false, 0; split; [reflexivity|discriminate]|].
  rewrite run_bind, run_lift. destruct (get_packet false data psize) as [k|x] eqn:K; [|exists false, 0; split; [reflexivity|discriminate]]. cbn [bind fst snd].
  apply packet_size_is in K as (K1 & K2). rewrite run_bind, run_lift. destruct (act s off data k) as [[s' stop]|x]; [|exists false, 0; split; [reflexivity|discriminate]]. cbn [bind fst snd].
  change (o_start o + o_size o) with (asf_skip o). assert (R : rd = false) by (destruct rd; [|reflexivity]; destruct Hr; [reflexivity|]; nia). rewrite R. cbn [orb].
  assert (P : off + lenN data = off + Z.to_N psize) by lia. destruct stop.
  - rewrite run_ret. do 2 eexists. split; [reflexivity|]. intros E. lia.
  - apply IH; [|intros E; lia]. destruct (N.eq_dec n 1) as [->|N1]; [now left|right]. lia.
Qed.

(** ** The loop *)
Definition act_ok {S} (c : bytes) (act : S -> object -> result (S * N)) (pact : S -> object -> prog S) : Prop :=
  forall s o, run (flat_op c) (o_start o) (pact s o) = act s o.
Lemma loop_ok {S} m c stop (act : S -> object -> result (S * N)) pact : m = Main \/ m = Sample -> act_ok c act pact -> forall fuel pos s,
  (do r <- run (flat_op c) pos (p_loop fuel m (lenN c) stop pact s); Ok (fst r)) = asf_loop fuel m stop act c pos s.
Proof.
  intros Hm A. induction fuel as [|fuel IH]; intros pos s; [reflexivity|]. cbn [p_loop asf_loop]. rewrite run_bind, next_ok by exact Hm.
  destruct (asf_next m c pos) as [[o|]|x] eqn:E; cbn [bind fst snd]; [|reflexivity|reflexivity]. destruct (stop s); [reflexivity|]. rewrite run_bind. rewrite <- (next_at m c pos o Hm E). rewrite A.
  destruct (act s o) as [[s' p]|x]; [|reflexivity]. cbn [bind fst snd]. apply IH.
Qed.
Lemma run_ok {S A} m c stop (act : S -> object -> result (S * N)) pact (k : S -> A) s : m = Main \/ m = Sample -> act_ok c act (pact (lenN c)) ->
  (do r <- run (flat_op c) 0 (ask x <- p_run m stop pact s; Ret (k x)); Ok (fst r)) = do x <- asf_run m stop act c s; Ok (k x).
Proof.
  intros Hm H. unfold asf_run. rewrite <- (loop_ok m c stop act _ Hm H). replace (1 + length c)%nat with (1 + N.to_nat (lenN c))%nat by (rewrite lenN_length; now rewrite Nat2N.id).
  unfold p_run. rewrite run_bind, run_bind, run_size. cbn [bind fst snd]. rewrite run_bind. change 0%Z with (Z.of_N 0). rewrite run_start. cbn [bind fst snd].
  destruct (run (flat_op c) 0 _) as [[x q]|e]; reflexivity.
Qed.

(** ** The steps *)
Lemma count_fits o count psize : packet_size (o_header o) (o_size o) count = Ok psize -> (Z.of_N (o_data o) + Z.of_N count * psize <= Z.of_N (asf_skip o))%Z.
Proof.
  unfold packet_size. destruct (N.eqb_spec count 0) as [|C]; [discriminate|]. intros H. apply ok_inj in H. subst psize. unfold o_data, asf_skip.
  pose proof (Z.mul_div_le (Z.of_N (o_size o) - Z.of_N (lenN (o_header o))) (Z.of_N count)). lia.
Qed.
Lemma find_ok c : act_ok c (find_step c) (p_find_step (lenN c)).
Proof.
  intros s o. unfold find_step, p_find_step. destruct (guid_is DATA_OBJECT o).
  - rewrite run_bind, run_lift. destruct (packet_count (o_header o)) as [count|x]; [|reflexivity]. cbn [bind fst snd]. rewrite run_bind, run_lift. destruct (packet_size (o_header o) (o_size o) count) as [psize|x] eqn:E; [|reflexivity]. cbn [bind fst snd].
    rewrite run_bind. replace (1 + N.to_nat (lenN c))%nat with (1 + length c)%nat by (rewrite lenN_length; now rewrite Nat2N.id).
    destruct (packets_ok c false find_packet o psize (1 + length c) count (o_data o) s false (o_start o)) as (b & q & R & Q); [right; now apply count_fits|discriminate|]. rewrite R.
    destruct (packets (1 + length c) false find_packet c psize count (o_data o) s) as [r|x]; [|reflexivity]. cbn [bind fst snd]. rewrite run_bind, skip_ok by exact Q. reflexivity.
  - rewrite run_bind, skip_ok by discriminate. reflexivity.
Qed.
Lemma extract_ok c first : act_ok c (extract_step c first) (p_extract_step first (lenN c)).
Proof.
  intros s o. unfold extract_step, p_extract_step. destruct (guid_is DATA_OBJECT o).
  - rewrite run_bind, run_lift. destruct (packet_count (o_header o)) as [count|x]; [|reflexivity]. cbn [bind fst snd]. rewrite run_bind, run_lift. destruct (packet_size (o_header o) (o_size o) count) as [psize|x] eqn:E; [|reflexivity]. cbn [bind fst snd].
    rewrite run_bind. replace (1 + N.to_nat (lenN c))%nat with (1 + length c)%nat by (rewrite lenN_length; now rewrite Nat2N.id). set (out := left_out (o_data o) psize count first).
    set (off := Z.to_N (Z.of_N (o_data o) + Z.of_N out * psize)).
    destruct (packets_ok c true extract_packet o psize (1 + length c) (count - out) off s false (o_start o)) as (b & q & R & Q); [|discriminate|].
    { apply count_fits in E. assert (O : out = 0 \/ out = count \/ (0 < psize)%Z /\ out <= count).
      { unfold out, left_out. destruct (_ <=? _)%Z; [now left|]. destruct (Z.leb_spec psize 0) as [|P]; [right; now left|right; right]. split; [exact P|lia]. }
      destruct O as [O|[O|(P & O)]]; [|left; lia|].
      - right. unfold off. rewrite O. rewrite Z.mul_0_l, Z.add_0_r, N2Z.id, N.sub_0_r. exact E.
      - right. unfold off. nia. }
    rewrite R. destruct (packets (1 + length c) true extract_packet c psize (count - out) off s) as [r|x]; [|reflexivity]. cbn [bind fst snd]. rewrite run_bind, skip_ok by exact Q. reflexivity.
  - rewrite run_bind, skip_ok by discriminate. reflexivity.
Qed.

Theorem wmv_find_same f path archived main ts : movie f path archived main -> open_run f path archived (p_wmv_find ts) = wmv_find ts main.
Proof.
  intros M. rewrite (open_same f path archived main _ M). unfold p_wmv_find, wmv_find. rewrite (run_ok Main main _ _ _ (fun s : fstate => fst (fst s)) _ (or_introl eq_refl) (find_ok main)). reflexivity.
Qed.
Theorem wmv_extract_same f path archived main ts : movie f path archived main -> open_run f path archived (p_wmv_extract ts) = wmv_extract ts main.
Proof.
  intros M. rewrite (open_same f path archived main _ M). unfold p_wmv_extract, wmv_extract. rewrite (run_ok Sample main _ _ _ (fun s : tracks * bool => fst s) _ (or_intror eq_refl) (extract_ok main (min_offset ts))). reflexivity.
Qed.
Theorem wmv_restore_same f path archived main no_stored srs : movie f path archived main -> wmv_restore_at f no_stored srs path archived = wmv_restore no_stored srs main.
Proof. intros M. apply StrmProgFacts.rebuild_ext; intros ts; [now apply wmv_find_same|now apply wmv_extract_same]. Qed.
