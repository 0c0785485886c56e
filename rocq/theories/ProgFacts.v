(** ProgFacts: programs over a main file: a file inside RAR volumes answers like the file. *)
From Verif Require Import Base BaseFacts Srs Path VolName VolSpec VolFacts Srr SetSpec Stream StreamSpec StreamFacts Prog ProgSpec.

Lemma run_bind {St A B} (step : St -> op -> St * answer) (p : prog A) (k : A -> prog B) : forall s,
  run step s (pbind p k) = do r <- run step s p; run step (snd r) (k (fst r)).
Proof.
  induction p as [a|e|o q IH]; intros s; [reflexivity|reflexivity|]. cbn [pbind run]. destruct (step s o) as [s' a]. apply IH.
Qed.
Lemma run_lift {St A} (step : St -> op -> St * answer) (r : result A) s : run step s (lift r) = do a <- r; Ok (a, s).
Proof. destruct r; reflexivity. Qed.
Lemma run_ret {St A} (step : St -> op -> St * answer) (a : A) s : run step s (Ret a) = Ok (a, s).
Proof. reflexivity. Qed.
Lemma run_raise {St A} (step : St -> op -> St * answer) e s : run step s (@Raise A e) = Err e.
Proof. reflexivity. Qed.

(** ** A file *)
Lemma run_tell c pos : run (flat_op c) pos p_tell = Ok (pos, pos).
Proof. cbn. now rewrite N2Z.id. Qed.
Lemma run_read c pos n : run (flat_op c) pos (p_read n) = Ok (read_at c pos n, pos + lenN (read_at c pos n)).
Proof. cbn. reflexivity. Qed.
Lemma run_seek c pos off w : run (flat_op c) pos (p_seek off w) =
  let d := (match w with FromStart => 0 | FromHere => Z.of_N pos | FromEnd => Z.of_N (lenN c) end + off)%Z in
  if (d <? 0)%Z then Err OSError else Ok (tt, Z.to_N d).
Proof. cbn [p_seek run flat_op]. cbv zeta. match goal with |- context [if ?b then _ else _] => destruct b end; reflexivity. Qed.
Lemma run_size c pos : run (flat_op c) pos p_size = Ok (lenN c, lenN c).
Proof. unfold p_size. rewrite run_bind, run_seek. cbv zeta. rewrite Z.add_0_r. replace (Z.of_N (lenN c) <? 0)%Z with false by lia. cbn [bind snd]. rewrite run_tell, N2Z.id. reflexivity. Qed.
Lemma run_start c pos n : run (flat_op c) pos (p_seek (Z.of_N n) FromStart) = Ok (tt, n).
Proof. rewrite run_seek. cbv zeta. rewrite Z.add_0_l. replace (Z.of_N n <? 0)%Z with false by lia. now rewrite N2Z.id. Qed.

(** ** A file inside RAR volumes *)
Lemma run_same {A} f c (p : prog A) : forall t, inv f c t ->
  (do r <- run (stream_op f) t p; Ok (fst r)) = (do r <- run (flat_op c) (Z.to_N (t_pos t)) p; Ok (fst r)).
Proof.
  induction p as [a|e|o k IH]; intros t I; [reflexivity|reflexivity|]. cbn [run].
  destruct (op_ok f c t o I) as (t' & E & I' & P). rewrite E. destruct (flat_op c (Z.to_N (t_pos t)) o) as [q a]. cbn [fst snd] in *. rewrite IH by exact I'. now rewrite P.
Qed.
Lemma open_empty f path middle any : rar_stream f path (Some []) middle any = rar_stream f path None middle any.
Proof.
  unfold rar_stream. assert (E : forall fuel p vols len, open_loop fuel f p (Some []) any vols len = open_loop fuel f p None any vols len).
  { induction fuel as [|fuel IH]; intros p vols len; cbn [open_loop]; [reflexivity|]. destruct (isfile f p); [|reflexivity].
    change (process f p (Some []) any vols len) with (process f p None any vols len). destruct (process f p None any vols len) as [[[v l] o]|e]; [|reflexivity]. cbn [bind].
    destruct (next_archive p o); [|reflexivity]. cbn [bind]. apply IH. }
  now rewrite E.
Qed.
Lemma name_rar s i : style_ok s -> i < vol_limit s -> is_rar (vol_name s i) = true.
Proof.
  intros Hs Hi. destruct s as [base rar|base part rar k|base start]; cbn [style_ok vol_limit] in *.
  - destruct (N.eq_dec i 0) as [->|H].
    + apply is_rar_spec. left. exists base, rar. split; [reflexivity|exact Hs].
    + destruct (old_later base rar i H Hi) as (c & a & b & E & A & B & C). rewrite E. apply is_rar_old; auto.
  - apply is_rar_spec. left. exists (base ++ part ++ dec k (i + 1)), rar. cbn [vol_name]. rewrite !app_assoc. split; [reflexivity|apply Hs].
  - destruct (num_name base start i) as (a & b & c & E & C & X); [lia|]. rewrite E. cbn [vol_name] in E.
    assert (E2 : [46] ++ dec 3 (start + i) = [46; a; b; c]) by now apply app_inv_head in E.
    cbn [dec app] in E2. injection E2 as <- <- <-. apply is_rar_old; unfold is_digit in *; [|exact C|left]; pose proof (N.mod_lt ((start + i) / 10) 10); pose proof (N.mod_lt ((start + i) / 10 / 10) 10); lia.
Qed.
Theorem open_same {A} f path archived main (p : prog A) : movie f path archived main ->
  open_run f path archived p = do r <- run (flat_op main) 0 p; Ok (fst r).
Proof.
  intros [[R G]|(s & first & vols & n & -> & Hd & Hs & Ha & Hf & ->)]; unfold open_run.
  - replace (is_rar path) with false by (symmetry; apply not_true_iff_false; rewrite is_rar_spec; exact R). now rewrite G.
  - assert (Y : is_rar (vol_name s first) = true) by (destruct Hd as (H1 & H2 & _); apply name_rar; [exact H1|lia]). rewrite Y.
    replace (rar_stream f (vol_name s first) (Some archived) false false) with (rar_stream f (vol_name s first) (match archived with [] => None | _ => Some archived end) false false)
      by (destruct archived; [symmetry; apply open_empty|reflexivity]).
    destruct (stream_inv f s first _ n false false vols Hd Ha (or_intror Hs)) as (t & Ht & T & L & P & v & r & Ev & Ec & S1 & S2).
    { intros E. rewrite E in Hf. exact Hf. }
    rewrite Ht. cbn [bind]. rewrite (run_same f (concat (parts_of n vols))).
    + now rewrite P.
    + split; [exact T|]. split; [exact L|]. split; [lia|]. unfold placed. rewrite Ec, Ev. split; [now left|].
      rewrite Ev in S2. destruct (parts_of n vols) as [|d ps]; [destruct Hf|]. cbn [first_full] in Hf.
      destruct Hf as [Hd0|H0]; [|right; auto]. left. rewrite P. inversion S2 as [|? ? ? ? S3]. unfold sized, zlen in S3. unfold vol_has.
      destruct d; [congruence|]. rewrite lenN_cons in S3. lia.
Qed.
