(** FpcalcFacts: proofs about what is fingerprinted. *)
From Verif Require Import Base BaseFacts SrrFacts Fpcalc FpcalcSpec.

Lemma starts_is (p l : bytes) : starts_with Byte.eqb p l = true <-> exists r, l = p ++ r.
Proof.
  split.
  - revert l. induction p as [|x p IH]; intros [|y l]; cbn [starts_with]; try discriminate; [now exists []|now exists (y :: l)|].
    intros H. apply andb_true_iff in H. destruct H as [E H]. apply beqb_spec' in E. subst y. destruct (IH l H) as (r & ->). now exists r.
  - intros (r & ->). induction p as [|x p IH]; [reflexivity|]. cbn [app starts_with]. rewrite IH. replace (Byte.eqb x x) with true by (symmetry; now apply beqb_spec'). reflexivity.
Qed.
Lemma sub_succ {A} i n x (l : list A) : sub (N.succ i) n (x :: l) = sub i n l.
Proof. unfold sub. rewrite !dropN_skipn, N2Nat.inj_succ. reflexivity. Qed.
Lemma sub_start (p l : bytes) : sub 0 (lenN p) l = p <-> exists r, l = p ++ r.
Proof.
  rewrite sub_0. split; [intros <-|intros (r & ->); now apply takeN_app_exact]. exists (dropN (lenN p) l). symmetry. apply takeN_dropN.
Qed.
Lemma find_is (p l : bytes) : p <> [] -> match find_sub Byte.eqb p l with Some i => sub i (lenN p) l = p /\ forall j, j < i -> sub j (lenN p) l <> p | None => forall j, sub j (lenN p) l <> p end.
Proof.
  intros Hp. induction l as [|x l IH].
  - cbn [find_sub]. destruct (starts_with Byte.eqb p []) eqn:S; [apply starts_is in S; destruct S as (r & S); destruct p; [contradiction|discriminate S]|].
    intros j H. unfold sub in H. assert (X : lenN (takeN (lenN p) (dropN j (@nil byte))) = 0) by (rewrite lenN_takeN, lenN_dropN; change (lenN (@nil byte)) with 0; lia). rewrite H in X. destruct p; [contradiction|]. rewrite lenN_cons in X. lia.
  - cbn [find_sub]. destruct (starts_with Byte.eqb p (x :: l)) eqn:S.
    + apply starts_is, sub_start in S. split; [exact S|]. intros j Hj. lia.
    + assert (S0 : sub 0 (lenN p) (x :: l) <> p) by (rewrite sub_start, <- starts_is; congruence).
      destruct (find_sub Byte.eqb p l) as [i|]; cbn [option_map].
      * destruct IH as [A B]. split; [now rewrite sub_succ|]. intros j Hj. destruct (N.eq_dec j 0) as [->|D]; [exact S0|]. replace j with (N.succ (j - 1)) by lia. rewrite sub_succ. apply B. lia.
      * intros j. destruct (N.eq_dec j 0) as [->|D]; [exact S0|]. replace j with (N.succ (j - 1)) by lia. rewrite sub_succ. apply IH.
Qed.
(** a place in a batch *)
Lemma batch_at (p data : bytes) cur j : lenN p = 4 -> (sub j 4 (sub cur (BATCH + 3) data) = p <-> j < BATCH /\ sub (cur + j) 4 data = p).
Proof.
  intros L. split.
  - intros H. assert (J : j < BATCH).
    { assert (X : lenN p = N.min 4 (lenN (sub cur (BATCH + 3) data) - j)) by (rewrite <- H at 1; apply lenN_sub). rewrite lenN_sub in X. unfold BATCH in *. lia. }
    split; [exact J|]. rewrite <- H. unfold sub. rewrite dropN_takeN, takeN_takeN, dropN_dropN. f_equal; [unfold BATCH in *; lia|f_equal; lia].
  - intros [J H]. rewrite <- H. unfold sub. rewrite dropN_takeN, takeN_takeN, dropN_dropN. f_equal; [unfold BATCH in *; lia|f_equal; lia].
Qed.
Lemma at_end data i : at_string data i -> i + 4 <= lenN data.
Proof.
  intros H. assert (X : lenN (sub i 4 data) = 4) by (destruct H as [-> | ->]; reflexivity). rewrite lenN_sub in X. lia.
Qed.
Lemma search_step fuel data cur : search (S fuel) data cur =
    if lenN (sub cur (BATCH + 3) data) =? 0 then Ok None
    else
      match find_sub Byte.eqb (bstr "Xing") (sub cur (BATCH + 3) data), find_sub Byte.eqb (bstr "LAME") (sub cur (BATCH + 3) data) with
      | None, None => search fuel data (cur + BATCH)
      | Some a, None => Ok (Some (cur + a))
      | None, Some b => Ok (Some (cur + b))
      | Some a, Some b => Ok (Some (cur + N.min a b))
      end.
Proof. reflexivity. Qed.
Lemma search_is fuel data cur : (forall j, j < cur -> ~ at_string data j) -> lenN data <= cur + N.of_nat fuel * BATCH ->
  match search (S fuel) data cur with Ok (Some i) => first_at data i | Ok None => forall j, ~ at_string data j | Err _ => False end.
Proof.
  revert cur. induction fuel as [|fuel IH]; intros cur Hb Hf; rewrite search_step.
  - assert (E : lenN (sub cur (BATCH + 3) data) =? 0 = true) by (apply N.eqb_eq; rewrite lenN_sub; lia). rewrite E.
    intros j H. destruct (N.lt_ge_cases j cur) as [J|J]; [exact (Hb j J H)|]. apply at_end in H. lia.
  - destruct (lenN (sub cur (BATCH + 3) data) =? 0) eqn:E.
    { apply N.eqb_eq in E. rewrite lenN_sub in E. intros j H. destruct (N.lt_ge_cases j cur) as [J|J]; [exact (Hb j J H)|]. apply at_end in H. unfold BATCH in E. lia. }
    apply N.eqb_neq in E. rewrite lenN_sub in E.
    pose proof (find_is (bstr "Xing") (sub cur (BATCH + 3) data) ltac:(discriminate)) as X. pose proof (find_is (bstr "LAME") (sub cur (BATCH + 3) data) ltac:(discriminate)) as Y.
    change (lenN (bstr "Xing")) with 4 in X. change (lenN (bstr "LAME")) with 4 in Y.
    pose proof (fun j => batch_at (bstr "Xing") data cur j eq_refl) as P. pose proof (fun j => batch_at (bstr "LAME") data cur j eq_refl) as Q.
    destruct (find_sub Byte.eqb (bstr "Xing") _) as [a|], (find_sub Byte.eqb (bstr "LAME") _) as [b|].
    + destruct X as [X1 X2], Y as [Y1 Y2]. apply P in X1. apply Q in Y1. destruct X1 as [Xa X1], Y1 as [Yb Y1]. split.
      * destruct (N.min_spec a b) as [[_ ->]|[_ ->]]; [now left|now right].
      * intros j Hj [H|H]; (destruct (N.lt_ge_cases j cur) as [J|J]; [apply (Hb j J); (now left) || (now right)|]).
        -- apply (X2 (j - cur)); [lia|]. apply P. split; [unfold BATCH in *; lia|]. now replace (cur + (j - cur)) with j by lia.
        -- apply (Y2 (j - cur)); [lia|]. apply Q. split; [unfold BATCH in *; lia|]. now replace (cur + (j - cur)) with j by lia.
    + destruct X as [X1 X2]. apply P in X1. destruct X1 as [Xa X1]. split; [now left|]. intros j Hj [H|H]; (destruct (N.lt_ge_cases j cur) as [J|J]; [apply (Hb j J); (now left) || (now right)|]).
      * apply (X2 (j - cur)); [lia|]. apply P. split; [unfold BATCH in *; lia|]. now replace (cur + (j - cur)) with j by lia.
      * apply (Y (j - cur)). apply Q. split; [unfold BATCH in *; lia|]. now replace (cur + (j - cur)) with j by lia.
    + destruct Y as [Y1 Y2]. apply Q in Y1. destruct Y1 as [Yb Y1]. split; [now right|]. intros j Hj [H|H]; (destruct (N.lt_ge_cases j cur) as [J|J]; [apply (Hb j J); (now left) || (now right)|]).
      * apply (X (j - cur)). apply P. split; [unfold BATCH in *; lia|]. now replace (cur + (j - cur)) with j by lia.
      * apply (Y2 (j - cur)); [lia|]. apply Q. split; [unfold BATCH in *; lia|]. now replace (cur + (j - cur)) with j by lia.
    + apply IH; [|unfold BATCH in *; lia]. intros j Hj H. destruct (N.lt_ge_cases j cur) as [J|J]; [exact (Hb j J H)|].
      destruct H as [H|H]; [apply (X (j - cur)); apply P|apply (Y (j - cur)); apply Q]; (split; [lia|]); now replace (cur + (j - cur)) with j by lia.
Qed.
Lemma first_unique data i j : first_at data i -> first_at data j -> i = j.
Proof. intros [A B] [C D]. destruct (N.lt_trichotomy i j) as [H|[H|H]]; [destruct (D i H A)|exact H|destruct (B j H C)]. Qed.
Theorem string_thm data : (forall i, string_index data = Ok i <-> first_at data i) /\ (string_index data = Err ValueError <-> forall i, ~ at_string data i).
Proof.
  pose proof (search_is (N.to_nat (lenN data / BATCH) + 1) data 0) as H. replace (S (N.to_nat (lenN data / BATCH) + 1)) with (N.to_nat (lenN data / BATCH) + 2)%nat in H by lia.
  assert (G : lenN data <= 0 + N.of_nat (N.to_nat (lenN data / BATCH) + 1) * BATCH) by (pose proof (N.div_mod (lenN data) BATCH ltac:(discriminate)); pose proof (N.mod_lt (lenN data) BATCH ltac:(discriminate)); lia).
  specialize (H (fun j Hj => False_ind _ (N.nlt_0_r j Hj)) G). unfold string_index. destruct (search _ data 0) as [[i|]|e]; [| |contradiction]; cbn [bind].
  - split; [|split; [discriminate|intros N0; destruct (N0 i (proj1 H))]]. intros j. split; [intros E; apply ok_inj in E; now subst j|]. intros F. f_equal. now apply (first_unique data).
  - split; [|split; [intros _; exact H|reflexivity]]. intros i. split; [discriminate|]. intros F. destruct (H i (proj1 F)).
Qed.
(** the place where the data starts *)
Lemma rfind_is l e : match rfind_ff l e with
  | Some s => (s < e)%nat /\ nth_error l s = Some xff /\ forall q, (s < q < e)%nat -> nth_error l q <> Some xff
  | None => forall q, (q < e)%nat -> nth_error l q <> Some xff end.
Proof.
  assert (D : forall o : option byte, o = Some xff \/ o <> Some xff) by (intros [b|]; [|right; discriminate]; destruct (byte_eq_dec b xff) as [->|N0]; [now left|right; congruence]).
  induction e as [|e IH]; [intros q Hq; lia|]. assert (E : rfind_ff l (S e) = match nth_error l e with Some xff => Some e | _ => rfind_ff l e end) by reflexivity. rewrite E. clear E.
  destruct (D (nth_error l e)) as [X|X].
  - rewrite X. split; [lia|]. split; [exact X|]. intros q Hq. lia.
  - assert (E : match nth_error l e with Some xff => Some e | _ => rfind_ff l e end = rfind_ff l e) by (destruct (nth_error l e) as [b|]; [|reflexivity]; destruct b; try reflexivity; congruence). rewrite E. clear E.
    destruct (rfind_ff l e) as [s|].
    + destruct IH as (A & B & C). split; [lia|]. split; [exact B|]. intros q Hq. destruct (Nat.eq_dec q e) as [->|]; [exact X|apply C; lia].
    + intros q Hq. destruct (Nat.eq_dec q e) as [->|]; [exact X|apply IH; lia].
Qed.
Lemma one_at (data : bytes) p x : sub p 1 data = [x] <-> nth_error data (N.to_nat p) = Some x.
Proof.
  unfold sub. rewrite dropN_skipn. revert data. generalize (N.to_nat p). intros n. induction n as [|n IH]; intros [|y data]; cbn [skipn nth_error].
  - split; intros H; discriminate H.
  - rewrite <- (sub_0 1). change (sub 0 1 (y :: data)) with (takeN 1 ([y] ++ data)). rewrite takeN_app_exact by reflexivity. split; intros H; injection H as <-; reflexivity.
  - split; intros H; discriminate H.
  - apply IH.
Qed.
Lemma window_at (data : bytes) a q x : (q < 256)%nat -> (nth_error (sub a 0x100 data) q = Some x <-> sub (a + N.of_nat q) 1 data = [x]).
Proof.
  intros Hq. replace (nth_error (sub a 256 data) q) with (nth_error (sub a 256 data) (N.to_nat (N.of_nat q))) by now rewrite Nat2N.id.
  rewrite <- one_at. unfold sub. rewrite dropN_takeN, takeN_takeN, dropN_dropN. replace (N.min 1 (256 - N.of_nat q)) with 1 by lia. now rewrite (N.add_comm (N.of_nat q)).
Qed.
Lemma sync_is l s fuel : nth_error l s = Some xff -> sync_loop (S fuel) l (Some s) = Ok (Some s).
Proof. intros H. cbn [sync_loop]. rewrite H. reflexivity. Qed.
Theorem stripped_thm data i : first_at data i -> (i < 256 -> stripped data = Err OSError) /\
  (256 <= i -> no_ff data (i - 256) (i - 1) -> stripped data = Ok (dropN (i - 255) data)) /\
  (forall p, 256 <= i -> last_ff data (i - 256) (i - 1) p -> (2 * (i - 256) < p -> stripped data = Err OSError) /\ (p <= 2 * (i - 256) -> stripped data = Ok (dropN (2 * (i - 256) - p) data))).
Proof.
  intros F. pose proof (proj2 (proj1 (string_thm data) i) F) as S0. unfold stripped. rewrite S0. cbn [bind]. split; [intros L; apply N.ltb_lt in L; now rewrite L|].
  assert (W : 256 <= i -> length (sub (i - 256) 256 data) = 256%nat).
  { intros L. pose proof (at_end data i (proj1 F)) as E. pose proof (lenN_sub (i - 256) 256 data) as X. rewrite lenN_length in X. lia. }
  change (sub (i - 256) 0x100 data) with (sub (i - 256) 256 data).
  assert (R : 256 <= i -> match rfind_ff (sub (i - 256) 256 data) 255 with
    | Some s => last_ff data (i - 256) (i - 1) (i - 256 + N.of_nat s) /\ (s < 255)%nat /\ nth_error (sub (i - 256) 256 data) s = Some xff
    | None => no_ff data (i - 256) (i - 1) end).
  { intros L. pose proof (rfind_is (sub (i - 256) 256 data) 255) as H. destruct (rfind_ff _ 255) as [s|].
    - destruct H as (A & B & C). split; [|split; [exact A|exact B]]. split; [lia|]. split; [apply window_at; [lia|exact B]|]. intros q Hq X. apply (C (N.to_nat (q - (i - 256)))); [lia|]. apply window_at; [lia|]. now replace (i - 256 + N.of_nat (N.to_nat (q - (i - 256)))) with q by lia.
    - intros q Hq X. apply (H (N.to_nat (q - (i - 256)))); [lia|]. apply window_at; [lia|]. now replace (i - 256 + N.of_nat (N.to_nat (q - (i - 256)))) with q by lia. }
  split.
  - intros L Hn. replace (i <? 0x100) with false by (symmetry; now apply N.ltb_ge). cbv zeta. rewrite (W L). change (256 - 1)%nat with 255%nat. specialize (R L). destruct (rfind_ff _ 255) as [s|].
    + destruct R as ((Ra & Rb & _) & _). destruct (Hn _ Ra Rb).
    + cbn [sync_loop bind]. replace (Z.of_N i - (256 + -1) <? 0)%Z with false by (symmetry; apply Z.ltb_ge; lia). f_equal. f_equal. lia.
  - intros p L Hl. replace (i <? 0x100) with false by (symmetry; now apply N.ltb_ge). cbv zeta. rewrite (W L). change (256 - 1)%nat with 255%nat. specialize (R L). destruct (rfind_ff _ 255) as [s|].
    + destruct R as ((Ra & Rb & Rc) & Rs & Rn). assert (P : p = i - 256 + N.of_nat s).
      { destruct Hl as (La & Lb & Lc). destruct (N.lt_trichotomy p (i - 256 + N.of_nat s)) as [H|[H|H]]; [|exact H|].
        - destruct (Lc (i - 256 + N.of_nat s)); [lia|exact Rb].
        - destruct (Rc p); [lia|exact Lb]. }
      rewrite (sync_is _ s 256 Rn). cbn [bind]. split; intros Hp.
      * replace (Z.of_N i - (256 + Z.of_nat s) <? 0)%Z with true by (symmetry; apply Z.ltb_lt; lia). reflexivity.
      * replace (Z.of_N i - (256 + Z.of_nat s) <? 0)%Z with false by (symmetry; apply Z.ltb_ge; lia). f_equal. f_equal. lia.
    + destruct Hl as (La & Lb & _). destruct (R p La Lb).
Qed.
Theorem suffix_thm data out : stripped data = Ok out -> exists i start, first_at data i /\ start <= i /\ out = dropN start data.
Proof.
  intros H. pose proof H as H0. unfold stripped in H. destruct (string_index data) as [i|] eqn:E; [|discriminate H]. apply (proj1 (string_thm data)) in E. exists i.
  cbn [bind] in H. destruct (i <? 0x100); [discriminate H|]. cbv zeta in H. destruct (sync_loop _ _ _) as [s|]; [|discriminate H]. cbn [bind] in H.
  remember (Z.of_N i - (256 + match s with Some s0 => Z.of_nat s0 | None => -1 end))%Z as z eqn:Ez. destruct (z <? 0)%Z eqn:Z0; [discriminate H|]. apply ok_inj in H. exists (Z.to_N z). split; [exact E|]. split; [|now symmetry].
  assert (z <= Z.of_N i)%Z by (destruct s; lia). lia.
Qed.
(** the output of fpcalc *)
Lemma fold_is lines : let h := fold_left line_of lines (mkHeard [] [] false) in
  (h_bad h = true <-> says_error lines) /\
  (last_with "DURATION=" lines (h_duration h) \/ h_duration h = [] /\ forall l y, In l lines -> l <> bstr "DURATION=" ++ y) /\
  (last_with "FINGERPRINT=" lines (h_print h) \/ h_print h = [] /\ forall l y, In l lines -> l <> bstr "FINGERPRINT=" ++ y).
Proof.
  cbv zeta. induction lines as [|line lines IH] using rev_ind.
  - cbn. split; [split; [discriminate|intros (y & [[]|[]])]|]. split; right; (split; [reflexivity|intros l y []]).
  - rewrite fold_left_app. cbn [fold_left]. set (h := fold_left line_of lines (mkHeard [] [] false)) in *. destruct IH as (A & B & C).
    assert (Keep : forall st x, (forall y, line <> bstr st ++ y) -> (last_with st lines x \/ x = [] /\ forall l y, In l lines -> l <> bstr st ++ y) ->
      last_with st (lines ++ [line]) x \/ x = [] /\ forall l y, In l (lines ++ [line]) -> l <> bstr st ++ y).
    { intros st x Nl [(a & b & -> & Nb)|(-> & Na)].
      - left. exists a, (b ++ [line]). split; [now rewrite <- app_assoc|]. intros l y Hl. apply in_app_or in Hl. destruct Hl as [Hl|[<-|[]]]; auto.
      - right. split; [reflexivity|]. intros l y Hl. apply in_app_or in Hl. destruct Hl as [Hl|[<-|[]]]; auto. }
    assert (Err : forall P : Prop, ((exists y, line = bstr "ERROR: couldn't open the file" ++ y) \/ (exists y, line = bstr "ERROR: couldn't find stream" ++ y) <-> P) ->
      (says_error (lines ++ [line]) <-> says_error lines \/ P)).
    { intros P HP. rewrite <- HP. unfold says_error. split.
      - intros (y & [I|I]); apply in_app_or in I; destruct I as [I|[I|[]]]; eauto.
      - intros [(y & [I|I])|[(y & ->)|(y & ->)]]; exists y; [left|right|left|right]; apply in_or_app; auto; right; now left. }
    unfold line_of. destruct (starts_with Byte.eqb (bstr "DURATION=") line) eqn:S1.
    { apply starts_is in S1. destruct S1 as (r & ->). cbn [h_duration h_print h_bad]. split; [|split].
      - rewrite (Err False); [tauto|]. split; [|tauto]. intros [(y & E)|(y & E)]; discriminate E.
      - left. exists lines, []. split; [|intros l y []]. rewrite dropN_app_exact by reflexivity. reflexivity.
      - apply Keep; [intros y E; discriminate E|exact C]. }
    assert (N1 : forall y, line <> bstr "DURATION=" ++ y) by (intros y E; assert (starts_with Byte.eqb (bstr "DURATION=") line = true) by (apply starts_is; now exists y); congruence).
    destruct (starts_with Byte.eqb (bstr "FINGERPRINT=") line) eqn:S2.
    { apply starts_is in S2. destruct S2 as (r & ->). cbn [h_duration h_print h_bad]. split; [|split].
      - rewrite (Err False); [tauto|]. split; [|tauto]. intros [(y & E)|(y & E)]; discriminate E.
      - apply Keep; [exact N1|exact B].
      - left. exists lines, []. split; [|intros l y []]. rewrite dropN_app_exact by reflexivity. reflexivity. }
    assert (N2 : forall y, line <> bstr "FINGERPRINT=" ++ y) by (intros y E; assert (starts_with Byte.eqb (bstr "FINGERPRINT=") line = true) by (apply starts_is; now exists y); congruence).
    destruct (starts_with Byte.eqb (bstr "ERROR: couldn't open the file") line) eqn:S3.
    { cbn [h_duration h_print h_bad]. split; [|split; apply Keep; assumption]. rewrite (Err True); [tauto|]. apply starts_is in S3. tauto. }
    assert (N3 : ~ exists y, line = bstr "ERROR: couldn't open the file" ++ y) by (rewrite <- starts_is; congruence).
    destruct (starts_with Byte.eqb (bstr "ERROR: couldn't find stream") line) eqn:S4.
    { cbn [h_duration h_print h_bad]. split; [|split; apply Keep; assumption]. rewrite (Err True); [tauto|]. apply starts_is in S4. tauto. }
    assert (N4 : ~ exists y, line = bstr "ERROR: couldn't find stream" ++ y) by (rewrite <- starts_is; congruence).
    split; [rewrite (Err False); tauto|]. split; apply Keep; assumption.
Qed.
Lemma last_unique st lines x y : last_with st lines x -> last_with st lines y -> x = y.
Proof.
  intros (a & b & -> & Nb) (c & d & E & Nd). revert c E. induction a as [|k a IH]; intros [|k' c] E; cbn [app] in E.
  - injection E as E _. now apply app_inv_head in E.
  - injection E as _ ->. exfalso. apply (Nb (bstr st ++ y) y); [|reflexivity]. apply in_or_app. right. now left.
  - injection E as _ <-. exfalso. apply (Nd (bstr st ++ x) x); [|reflexivity]. apply in_or_app. right. now left.
  - injection E as _ E. exact (IH c E).
Qed.
Theorem parse_thm lines d p : parse lines = Some (d, p) <-> printed lines d p.
Proof.
  unfold parse, printed. pose proof (fold_is lines) as H. cbv zeta in *. set (h := fold_left line_of lines (mkHeard [] [] false)) in *. destruct H as (A & B & C).
  assert (L0 : forall l : bytes, (lenN l =? 0) = true <-> l = []) by (intros l; rewrite N.eqb_eq; destruct l; [split; reflexivity|rewrite lenN_cons; split; [lia|discriminate]]).
  destruct (h_bad h) eqn:Hb; cbn [orb]; [split; [discriminate|intros (N0 & _); destruct (N0 (proj1 A eq_refl))]|].
  assert (NE : ~ says_error lines) by (rewrite <- A; congruence).
  destruct (lenN (h_duration h) =? 0) eqn:Hd; cbn [orb].
  { apply L0 in Hd. split; [discriminate|]. intros (_ & Nd & _ & Ld & _). destruct B as [B|[_ B]]; [exfalso; apply Nd; rewrite <- Hd; exact (last_unique _ _ _ _ Ld B)|]. destruct Ld as (a & b & -> & _). exfalso. apply (B (bstr "DURATION=" ++ d) d); [|reflexivity]. apply in_or_app. right. now left. }
  destruct (lenN (h_print h) =? 0) eqn:Hp.
  { apply L0 in Hp. split; [discriminate|]. intros (_ & _ & Np & _ & Lp). destruct C as [C|[_ C]]; [exfalso; apply Np; rewrite <- Hp; exact (last_unique _ _ _ _ Lp C)|]. destruct Lp as (a & b & -> & _). exfalso. apply (C (bstr "FINGERPRINT=" ++ p) p); [|reflexivity]. apply in_or_app. right. now left. }
  assert (Nd : h_duration h <> []) by (rewrite <- L0; congruence). assert (Np : h_print h <> []) by (rewrite <- L0; congruence).
  destruct B as [B|[B _]]; [|contradiction]. destruct C as [C|[C _]]; [|contradiction]. split.
  - intros E. apply some_inj in E. apply pair_equal_spec in E. destruct E as [<- <-]. tauto.
  - intros (_ & _ & _ & Ld & Lp). rewrite (last_unique _ _ _ _ B Ld), (last_unique _ _ _ _ C Lp). reflexivity.
Qed.
(** the attempts *)
Section Runs.
Variables (fpcalc : bytes -> list bytes) (music : bytes -> result bytes).
Notation fails d := (forall x y, ~ printed (fpcalc d) x y).
Notation finds d x y := (printed (fpcalc d) x y).
Lemma fails_is d : parse (fpcalc d) = None <-> fails d.
Proof.
  split.
  - intros E x y H. apply parse_thm in H. congruence.
  - intros H. destruct (parse (fpcalc d)) as [[x y]|] eqn:E; [|reflexivity]. apply parse_thm in E. destruct (H x y E).
Qed.
Theorem fingerprint_thm ascii data x y : fst (fingerprint fpcalc music 3 ascii data 0) = Ok (x, y) <->
  finds data x y \/ (fails data /\ exists d1, music data = Ok d1 /\ (finds d1 x y \/ (fails d1 /\ exists d2, stripped d1 = Ok d2 /\ finds d2 x y))).
Proof.
  assert (P : forall d, match parse (fpcalc d) with Some (a, b) => (forall x y, finds d x y <-> x = a /\ y = b) /\ ~ fails d | None => (forall x y, finds d x y <-> False) /\ fails d end).
  { intros d. destruct (parse (fpcalc d)) as [[a b]|] eqn:E.
    - split; [|intros H; apply parse_thm in E; exact (H a b E)]. intros u v. rewrite <- parse_thm, E. split; [intros H; apply some_inj in H; now apply pair_equal_spec in H|intros [-> ->]; reflexivity].
    - pose proof (proj1 (fails_is d) E) as E0. split; [|exact E0]. intros u v. split; [apply E0|contradiction]. }
  cbn [fingerprint]. change (1 <? 0) with false. change (0 + 1 <? 2) with true. change (1 <? 0 + 1) with false. change (0 + 1 + 1 <? 2) with false. change (1 <? 0 + 1 + 1) with true. cbv iota.
  pose proof (P data) as P0. destruct (parse (fpcalc data)) as [[a b]|].
  { destruct P0 as [P0 Q0]. rewrite P0. cbn [fst]. split; [intros E; apply ok_inj in E; apply pair_equal_spec in E; left; destruct E; split; congruence|]. intros [[-> ->]|[X _]]; [reflexivity|contradiction]. }
  destruct P0 as [P0 Q0]. rewrite P0. destruct (music data) as [d1|e1]; [|split; [discriminate|intros [[]|(_ & d1 & E & _)]; discriminate E]].
  pose proof (P d1) as P1. destruct (parse (fpcalc d1)) as [[a b]|].
  { destruct P1 as [P1 Q1]. cbn [fst]. split.
    - intros E. apply ok_inj in E. apply pair_equal_spec in E. right. split; [exact Q0|]. exists d1. split; [reflexivity|]. left. apply P1. destruct E; split; congruence.
    - intros [[]|(_ & d & E & H)]. apply ok_inj in E. subst d. destruct H as [H|[H _]]; [apply P1 in H; destruct H as [-> ->]; reflexivity|contradiction]. }
  destruct P1 as [P1 Q1]. destruct (stripped d1) as [d2|e2] eqn:S2.
  2:{ split; [discriminate|]. intros [[]|(_ & d & E & H)]. apply ok_inj in E. subst d. destruct H as [H|(_ & d2 & E & _)]; [now apply P1 in H|congruence]. }
  pose proof (P d2) as P2. destruct (parse (fpcalc d2)) as [[a b]|].
  - destruct P2 as [P2 Q2]. cbn [fst]. split.
    + intros E. apply ok_inj in E. apply pair_equal_spec in E. right. split; [exact Q0|]. exists d1. split; [reflexivity|]. right. split; [exact Q1|]. exists d2. split; [exact S2|]. apply P2. destruct E; split; congruence.
    + intros [[]|(_ & d & E & H)]. apply ok_inj in E. subst d. destruct H as [H|(_ & d & E & H)]; [now apply P1 in H|]. rewrite S2 in E. apply ok_inj in E. subst d. apply P2 in H. destruct H as [-> ->]. reflexivity.
  - destruct P2 as [P2 Q2]. cbn [fst]. split; [discriminate|]. intros [[]|(_ & d & E & H)]. apply ok_inj in E. subst d. destruct H as [H|(_ & d & E & H)]; [now apply P1 in H|]. rewrite S2 in E. apply ok_inj in E. subst d. now apply P2 in H.
Qed.
Theorem left_thm ascii data : snd (fingerprint fpcalc music 3 ascii data 0) = 0 <-> (ascii = true \/ (exists r, fst (fingerprint fpcalc music 3 ascii data 0) = Ok r)).
Proof.
  cbn [fingerprint]. change (1 <? 0) with false. change (0 + 1 <? 2) with true. change (1 <? 0 + 1) with false. change (0 + 1 + 1 <? 2) with false. change (1 <? 0 + 1 + 1) with true. cbv iota.
  assert (Y : forall r0 : bytes * bytes, 0 = 0 <-> (ascii = true \/ (exists r, Ok r0 = Ok r))) by (intros r0; split; [intros _; right; now exists r0|reflexivity]).
  assert (F : forall (e : exn) n, n = (if ascii then 0 else 1) -> n = 0 <-> (ascii = true \/ (exists r : bytes * bytes, Err e = Ok r))).
  { intros e n ->. destruct ascii; [split; [now left|reflexivity]|]. split; [discriminate|intros [H|(r & H)]; discriminate H]. }
  destruct (parse (fpcalc data)) as [r0|]; [apply Y|]. destruct (music data) as [d1|]; [|now apply F].
  destruct (parse (fpcalc d1)) as [r0|]; [apply Y|]. destruct (stripped d1) as [d2|]; [|apply F; destruct ascii; reflexivity].
  destruct (parse (fpcalc d2)) as [r0|]; [apply Y|apply F; destruct ascii; reflexivity].
Qed.
End Runs.
