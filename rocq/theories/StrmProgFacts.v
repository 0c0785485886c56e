(** StrmProgFacts: a stream sample is rebuilt from a movie inside RAR volumes as from the movie. *)
From Verif Require Import Base BaseFacts Crc SrsRec Srs StrmSrs Avi StreamSpec Prog ProgSpec ProgFacts AviProg AviProgFacts StrmProg.
From Verif Require Srr.

Lemma bind_ret {A B C} (r : result (A * B)) (h : A -> C) : (do x <- r; Ok (h (fst x))) = do a <- (do x <- r; Ok (fst x)); Ok (h a).
Proof. destruct r; reflexivity. Qed.
Lemma drop_read {A} n (l : list A) pos : dropN n (dropN pos l) = dropN (pos + lenN (takeN n (dropN pos l))) l.
Proof.
  rewrite dropN_dropN, lenN_takeN, lenN_dropN. destruct (N.le_gt_cases n (lenN l - pos)) as [H|H]; [f_equal; lia|].
  rewrite !dropN_all by lia. reflexivity.
Qed.
Lemma search_ok c sig : forall fuel p x pos, (do r <- run (flat_op c) pos (p_search_loop fuel sig p x); Ok (fst r)) = search_loop fuel sig p x (dropN pos c) pos.
Proof.
  induction fuel as [|fuel IH]; intros p x pos; [reflexivity|]. cbn [p_search_loop search_loop]. destruct x as [|b x]; [reflexivity|].
  set (m := match p with [] => _ | _ => _ end). destruct m as [m|].
  - step. reflexivity.
  - step. rewrite read_at_pos. unfold sub. rewrite IH. now rewrite <- drop_read.
Qed.
Theorem stream_find_same f path archived main ts : movie f path archived main -> open_run f path archived (p_stream_find ts) = stream_find ts main.
Proof.
  intros M. rewrite (open_same f path archived main _ M). unfold p_stream_find, stream_find, search_stream. rewrite run_bind, run_size. cbn [bind fst snd].
  rewrite run_bind. change 0%Z with (Z.of_N 0). rewrite run_start. cbn [bind fst snd]. rewrite run_bind, run_lift. destruct (get_track 1 ts) as [t|e]; [|reflexivity]. cbn [bind fst snd].
  rewrite run_bind, run_read, read_at_pos. cbn [bind fst snd]. rewrite run_bind. unfold sub. rewrite dropN_0. rewrite N.add_0_l.
  replace (2 + N.to_nat (lenN main))%nat with (S (S (length main))) by (rewrite lenN_length; lia).
  pose proof (search_ok main (td_signature (t_td t)) (S (S (length main))) [] (takeN RAMOUNT main) (lenN (takeN RAMOUNT main))) as E.
  replace (dropN RAMOUNT main) with (dropN (lenN (takeN RAMOUNT main)) main) by (pose proof (drop_read RAMOUNT main 0) as D; rewrite dropN_0 in D; rewrite N.add_0_l in D; now symmetry).
  revert E. generalize (run (flat_op main) (lenN (takeN RAMOUNT main)) (p_search_loop (S (S (length main))) (td_signature (t_td t)) [] (takeN RAMOUNT main))).
  intros r E. rewrite <- E. destruct r; reflexivity.
Qed.
Theorem stream_extract_same f path archived main ts : movie f path archived main -> open_run f path archived (p_stream_extract ts) = stream_extract ts main.
Proof.
  intros M. rewrite (open_same f path archived main _ M). unfold p_stream_extract, stream_extract. rewrite run_bind, run_lift. destruct (get_track 1 ts) as [t|e]; [|reflexivity]. cbn [bind fst snd].
  rewrite run_bind, run_seek. cbv zeta. rewrite Z.add_0_l. destruct (t_offset t <? 0)%Z eqn:O; [reflexivity|]. cbn [bind fst snd]. rewrite run_bind, run_read, read_at_pos. cbn [bind fst snd].
  destruct (beqb _ _); [|reflexivity]. rewrite run_bind, run_seek. cbv zeta. rewrite Z.add_0_l, O. cbn [bind fst snd]. rewrite run_bind, run_read, read_at_pos. reflexivity.
Qed.

(** ** Rebuilding *)
Lemma rebuild_ext load find find' extract extract' rebuild a b no_stored srs main main' : (forall ts, find' ts main' = find ts main) -> (forall ts, extract' ts main' = extract ts main) ->
  srs_rebuild load find' extract' rebuild a b no_stored srs main' = srs_rebuild load find extract rebuild a b no_stored srs main.
Proof.
  intros F X. unfold srs_rebuild. destruct (load srs) as [[fd ts]|e]; [|reflexivity]. cbn [bind]. cbv zeta. rewrite F. match goal with |- context [if ?b then find ?x ?y else ?z] => destruct (if b then find x y else z) as [ts1|e]; [|reflexivity] end. cbn [bind]. destruct (_ && _); [reflexivity|]. now rewrite X.
Qed.
Theorem avi_restore_same f path archived main no_stored srs : movie f path archived main -> lenN main <> 0 -> avi_restore_at f no_stored srs path archived = avi_restore no_stored srs main.
Proof. intros M NE. apply rebuild_ext; intros ts; [now apply avi_find_same|now apply avi_extract_same]. Qed.
Theorem stream_restore_same f path archived main no_stored srs : movie f path archived main -> stream_restore_at f no_stored srs path archived = stream_restore no_stored srs main.
Proof. intros M. apply rebuild_ext; intros ts; [now apply stream_find_same|now apply stream_extract_same]. Qed.
