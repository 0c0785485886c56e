(** NzbFixFacts: repaired NZB files. *)
From Verif Require Import Base BaseFacts NzbFix NzbFixSpec.

Lemma sw_app p l : starts_with Byte.eqb p (p ++ l) = true.
Proof. induction p as [|c p IH]; [reflexivity|]. cbn [app starts_with]. rewrite IH, andb_true_r. now apply beqb_spec'. Qed.
Lemma sw_inv p : forall l, starts_with Byte.eqb p l = true -> exists r, l = p ++ r.
Proof.
  induction p as [|c p IH]; intros l H; [now exists l|]. destruct l as [|d l]; [discriminate|]. cbn [starts_with] in H. apply andb_true_iff in H as [E H].
  apply beqb_spec' in E. subst d. destruct (IH l H) as (r & ->). now exists r.
Qed.
Lemma b2n_eq b c : (b2n b =? b2n c) = true <-> b = c.
Proof. rewrite N.eqb_eq. split; [apply b2n_inj|now intros ->]. Qed.
Lemma b2n_ne b c : (b2n b =? b2n c) = false <-> b <> c.
Proof. rewrite <- not_true_iff_false, b2n_eq. reflexivity. Qed.

(** ** References *)
Lemma run_semi_spec f l : forall seen, f 59 = false ->
  (run_semi f seen l = true <-> exists n r, l = n ++ x3b :: r /\ Forall (fun b => f (b2n b) = true) n /\ (seen = true \/ n <> [])).
Proof.
  induction l as [|b l IH]; intros seen H; cbn [run_semi].
  - split; [discriminate|]. intros (n & r & E & _). destruct n; discriminate.
  - destruct (f (b2n b)) eqn:F.
    + rewrite (IH true H). split; intros (n & r & E & Fn & S).
      * exists (b :: n), r. split; [now rewrite E|]. split; [now constructor|]. right. discriminate.
      * destruct n as [|c n]; [injection E as -> _; change (b2n x3b) with 59 in F; congruence|]. injection E as <- ->. inversion Fn; subst. exists n, r. auto.
    + rewrite andb_true_iff. split.
      * intros [-> E]. change 59 with (b2n x3b) in E. apply b2n_eq in E. subst b. exists [], l. split; [reflexivity|]. split; [constructor|now left].
      * intros (n & r & E & Fn & S). destruct n as [|c n]; [injection E as -> _; destruct S as [->|S]; [split; reflexivity|contradiction]|].
        injection E as <- _. inversion Fn; subst. congruence.
Qed.
Lemma run_false f l : f 59 = false -> (run_semi f false l = true <-> exists n r, l = n ++ x3b :: r /\ n <> [] /\ Forall (fun b => f (b2n b) = true) n).
Proof.
  intros H. rewrite (run_semi_spec f l false H). split; intros (n & r & E & A & B).
  - destruct B as [B|B]; [discriminate|]. eauto.
  - exists n, r. auto.
Qed.
Lemma Forall_same {A} (P Q : A -> Prop) l : (forall x, P x <-> Q x) -> (Forall P l <-> Forall Q l).
Proof. intros H. split; apply Forall_impl; intros x; apply H. Qed.
Lemma entity_spec l : entity_next l = true <-> reference l.
Proof.
  unfold entity_next. rewrite orb_true_iff, run_false by reflexivity.
  assert (L : forall n, Forall (fun b => low_letter (b2n b) = true) n <-> Forall (all_in 97 122) n).
  { intros n. apply Forall_same. intros b. unfold low_letter, all_in. lia. }
  assert (D : forall n, Forall (fun b => dec_digit (b2n b) = true) n <-> Forall (all_in 48 57) n).
  { intros n. apply Forall_same. intros b. unfold dec_digit, all_in. lia. }
  assert (X : forall n, Forall (fun b => low_hex (b2n b) = true) n <-> Forall (fun b => all_in 48 57 b \/ all_in 97 102 b) n).
  { intros n. apply Forall_same. intros b. unfold low_hex, dec_digit, all_in. lia. }
  split.
  - intros [(n & r & E & N & F)|H].
    + exists n, r. split; [exact E|]. left. split; [exact N|now apply L].
    + destruct l as [|h l1]; [discriminate|]. apply andb_true_iff in H as [Hh H]. change 35 with (b2n x23) in Hh. apply b2n_eq in Hh. subst h. apply orb_true_iff in H as [H|H].
      * apply run_false in H; [|reflexivity]. destruct H as (n & r & -> & N & F). exists (x23 :: n), r. split; [reflexivity|]. right. left. exists n. split; [reflexivity|]. split; [exact N|now apply D].
      * destruct l1 as [|x l2]; [discriminate|]. apply andb_true_iff in H as [Hx H]. change 120 with (b2n x78) in Hx. apply b2n_eq in Hx. subst x.
        apply run_false in H; [|reflexivity]. destruct H as (n & r & -> & N & F). exists (x23 :: x78 :: n), r. split; [reflexivity|]. right. right. exists n. split; [reflexivity|]. split; [exact N|now apply X].
  - intros (n & r & -> & [(N & F)|[(d & -> & N & F)|(d & -> & N & F)]]).
    + left. exists n, r. split; [reflexivity|]. split; [exact N|now apply L].
    + right. cbn [bstr list_byte_of_string app]. change (b2n "#"%byte =? 35) with true. cbn [andb]. apply orb_true_iff. left. apply run_false; [reflexivity|]. exists d, r. split; [reflexivity|]. split; [exact N|now apply D].
    + right. cbn. apply run_false; [reflexivity|]. exists d, r. split; [reflexivity|]. split; [exact N|now apply X].
Qed.

(** ** Lines *)
Lemma amp_other b l : b <> x26 -> fix_amp (b :: l) = b :: fix_amp l.
Proof. intros H. cbn [fix_amp]. change 38 with (b2n x26). apply b2n_ne in H. now rewrite H. Qed.
Lemma amp_ref l : reference l -> fix_amp (x26 :: l) = x26 :: fix_amp l.
Proof. intros H. apply entity_spec in H. cbn [fix_amp]. now rewrite H. Qed.
Lemma amp_amp l : ~ reference l -> fix_amp (x26 :: l) = bstr "&amp;" ++ fix_amp l.
Proof. intros H. rewrite <- entity_spec in H. apply not_true_iff_false in H. cbn [fix_amp]. now rewrite H. Qed.
Lemma amp_prefix p : Forall (fun b => b <> x26) p -> forall l, starts_with Byte.eqb p (fix_amp l) = true -> exists r, l = p ++ r.
Proof.
  induction 1 as [|c p Hc _ IH]; intros l H; [now exists l|]. destruct l as [|b l]; [discriminate|].
  destruct (Byte.byte_eq_dec b x26) as [->|N].
  - exfalso. assert (E : exists r, fix_amp (x26 :: l) = x26 :: r) by (cbn [fix_amp]; destruct (_ && _); eexists; reflexivity).
    destruct E as (r & E). rewrite E in H. cbn [starts_with] in H. apply andb_true_iff in H as [H _]. apply beqb_spec' in H. contradiction.
  - rewrite amp_other in H by exact N. cbn [starts_with] in H. apply andb_true_iff in H as [E H]. apply beqb_spec' in E. subst c. destruct (IH l H) as (r & ->). now exists r.
Qed.
Lemma ouml_ref l : reference (bstr "ouml;" ++ l).
Proof. exists (bstr "ouml"), l. split; [reflexivity|]. left. split; [discriminate|]. repeat constructor; unfold all_in; cbn; lia. Qed.
Lemma sub_other b l : b <> x26 -> sub_ouml 0 (b :: l) = b :: sub_ouml 0 l.
Proof.
  intros H. cbn [sub_ouml]. replace (starts_with Byte.eqb (bstr "&ouml;") (b :: l)) with false; [reflexivity|]. symmetry. apply not_true_iff_false. intros E. apply sw_inv in E as (r & E). injection E as -> _. now apply H.
Qed.
Lemma sub_amp l : starts_with Byte.eqb (bstr "ouml;") l = false -> sub_ouml 0 (x26 :: l) = x26 :: sub_ouml 0 l.
Proof. intros H. assert (E : starts_with Byte.eqb (bstr "&ouml;") (x26 :: l) = false) by exact H. cbn [sub_ouml]. now rewrite E. Qed.
Lemma fix_nil : fix_line [] = [].
Proof. reflexivity. Qed.
Lemma fix_zero l : fix_line (x00 :: l) = fix_line l.
Proof. unfold fix_line. rewrite amp_other by discriminate. rewrite sub_other by discriminate. reflexivity. Qed.
Lemma fix_char b l : b <> x26 -> b <> x00 -> fix_line (b :: l) = b :: fix_line l.
Proof. intros A Z. unfold fix_line. rewrite amp_other by exact A. rewrite sub_other by exact A. cbn [filter]. change 0 with (b2n x00). apply b2n_ne in Z. now rewrite Z. Qed.
Lemma fix_ouml l : fix_line (bstr "&ouml;" ++ l) = xf6 :: fix_line l.
Proof.
  unfold fix_line. change (bstr "&ouml;" ++ l) with (x26 :: bstr "ouml;" ++ l). rewrite amp_ref by apply ouml_ref.
  change (bstr "ouml;" ++ l) with ("o"%byte :: "u"%byte :: "m"%byte :: "l"%byte :: ";"%byte :: l). rewrite !amp_other by discriminate. reflexivity.
Qed.
Lemma fix_ref l : reference l -> (forall r, l <> bstr "ouml;" ++ r) -> fix_line (x26 :: l) = x26 :: fix_line l.
Proof.
  intros R N. unfold fix_line. rewrite (amp_ref l R). rewrite sub_amp; [reflexivity|]. apply not_true_iff_false. intros E.
  apply amp_prefix in E; [destruct E as (r & E); now apply (N r)|]. repeat constructor; discriminate.
Qed.
Lemma fix_bad l : ~ reference l -> fix_line (x26 :: l) = bstr "&amp;" ++ fix_line l.
Proof.
  intros R. unfold fix_line. rewrite (amp_amp l R). change (bstr "&amp;" ++ fix_amp l) with (x26 :: "a"%byte :: "m"%byte :: "p"%byte :: ";"%byte :: fix_amp l).
  rewrite sub_amp by reflexivity. rewrite !sub_other by discriminate. reflexivity.
Qed.
Lemma rep_fix l o : rep l o -> fix_line l = o.
Proof.
  induction 1 as [|l o H IH|b l o A Z H IH|l o H IH|l o R N H IH|l o R H IH]; [reflexivity|now rewrite fix_zero|now rewrite fix_char, IH|now rewrite fix_ouml, IH|now rewrite fix_ref, IH|now rewrite fix_bad, IH].
Qed.
Lemma fix_rep_len k : forall l, (length l <= k)%nat -> rep l (fix_line l).
Proof.
  induction k as [|k IH]; intros l L; [destruct l; [constructor|cbn in L; lia]|]. destruct l as [|b l]; [constructor|]. cbn [length] in L.
  destruct (Byte.byte_eq_dec b x26) as [->|A].
  - destruct (entity_next l) eqn:E.
    + apply entity_spec in E. destruct (starts_with Byte.eqb (bstr "ouml;") l) eqn:O.
      * apply sw_inv in O as (r & ->). change (x26 :: bstr "ouml;" ++ r) with (bstr "&ouml;" ++ r). rewrite fix_ouml. constructor. apply IH. rewrite app_length in L. lia.
      * assert (N : forall r, l <> bstr "ouml;" ++ r) by (intros r ->; now rewrite sw_app in O). rewrite fix_ref by assumption. constructor; [assumption|assumption|apply IH; lia].
    + apply not_true_iff_false in E. rewrite entity_spec in E. rewrite fix_bad by exact E. apply rp_amp; [exact E|apply IH; lia].
  - destruct (Byte.byte_eq_dec b x00) as [->|Z]; [rewrite fix_zero; constructor|rewrite fix_char by assumption; constructor; try assumption]; apply IH; lia.
Qed.
Theorem line_spec l o : rep l o <-> fix_line l = o.
Proof. split; [apply rep_fix|]. intros <-. now apply (fix_rep_len (length l)). Qed.

(** every ampersand of the result begins a reference *)
Lemma name_bytes n : ref_name n -> Forall (fun b => b <> x26 /\ b <> x00) n.
Proof.
  assert (G : forall lo hi b, 39 <= lo -> all_in lo hi b -> b <> x26 /\ b <> x00).
  { intros lo hi b L [H _]. split; intros ->; cbn in H; lia. }
  intros [(_ & F)|[(d & -> & _ & F)|(d & -> & _ & F)]].
  - eapply Forall_impl; [|exact F]. intros b. apply G. lia.
  - constructor; [split; discriminate|]. eapply Forall_impl; [|exact F]. intros b. apply G. lia.
  - repeat (constructor; [split; discriminate|]). eapply Forall_impl; [|exact F]. intros b [H|H]; revert H; apply G; lia.
Qed.
Lemma fix_plain n l : Forall (fun b => b <> x26 /\ b <> x00) n -> fix_line (n ++ l) = n ++ fix_line l.
Proof. induction 1 as [|b n [A Z] _ IH]; [reflexivity|]. cbn [app]. now rewrite fix_char, IH. Qed.
Lemma ref_kept l : reference l -> reference (fix_line l).
Proof.
  intros (n & r & -> & N). exists n, (fix_line r). split; [|exact N]. rewrite fix_plain by now apply name_bytes. reflexivity.
Qed.
Theorem amps l a b : fix_line l = a ++ x26 :: b -> reference b.
Proof.
  intros E. apply line_spec in E. remember (a ++ x26 :: b) as o eqn:Eo. revert a b Eo.
  induction E as [|l o H IH|c l o A Z H IH|l o H IH|l o R N H IH|l o R H IH]; intros a b Eo.
  - destruct a; discriminate.
  - now apply (IH a).
  - destruct a as [|x a]; [injection Eo as -> _; now contradiction A|]. injection Eo as <- Eo. now apply (IH a).
  - destruct a as [|x a]; [discriminate|]. injection Eo as <- Eo. now apply (IH a).
  - destruct a as [|x a]; injection Eo as Eo; [|now apply (IH a)]. subst o. apply line_spec in H. subst b. now apply ref_kept.
  - destruct a as [|x a]; injection Eo as Eo.
    + subst b. exists (bstr "amp"), o. split; [reflexivity|]. left. split; [discriminate|]. repeat constructor; unfold all_in; cbn; lia.
    + subst x. destruct a as [|x1 [|x2 [|x3 [|x4 a]]]]; try discriminate. injection H0 as _ _ _ _ Eo. now apply (IH a).
Qed.

(** ** Files *)
Lemma tag_spec l : has_tag l = true <-> closing l.
Proof.
  unfold has_tag, closing. split.
  - intros H. destruct (find_sub _ _ _) as [k|] eqn:E; [|discriminate]. clear H. revert k E. induction l as [|b l IH]; intros k E; cbn [find_sub] in E.
    + destruct (starts_with _ _ _) eqn:S; [|discriminate]. apply sw_inv in S as (r & S). discriminate.
    + destruct (starts_with _ _ _) eqn:S in E; [apply sw_inv in S as (r & S); exists [], r; exact S|].
      destruct (find_sub _ _ l) as [j|]; [|discriminate]. destruct (IH j eq_refl) as (a & r & ->). now exists (b :: a), r.
  - intros (a & r & ->). induction a as [|b a IH].
    + cbn [app]. unfold END_TAG. destruct (bstr "</nzb>" ++ r) eqn:E; [discriminate|]. cbn [find_sub]. rewrite <- E, sw_app. reflexivity.
    + cbn [app find_sub]. destruct (starts_with _ _ _); [reflexivity|]. destruct (find_sub _ _ _); [reflexivity|discriminate].
Qed.
Lemma not_tag l : ~ closing l -> has_tag l = false.
Proof. rewrite <- tag_spec. apply not_true_iff_false. Qed.
Lemma lines_read data : file_lines data (readlines data).
Proof.
  assert (G : forall k data, (length data <= k)%nat -> file_lines data (readlines data)); [|now apply (G (length data))].
  clear data. induction k as [|k IH]; intros data L; [destruct data; [constructor|cbn in L; lia]|].
  assert (S : (~ In x0a data) \/ exists w t, data = w ++ x0a :: t /\ ~ In x0a w).
  { clear. induction data as [|b l [N|(w & t & -> & N)]]; [left; intros []| |].
    - destruct (Byte.byte_eq_dec b x0a) as [->|D]; [right; exists [], l; split; [reflexivity|intros []]|left; intros [X|X]; [now apply D|contradiction]].
    - destruct (Byte.byte_eq_dec b x0a) as [->|D]; [right; exists [], (w ++ x0a :: t); split; [reflexivity|intros []]|].
      right. exists (b :: w), t. split; [reflexivity|]. intros [X|X]; [now apply D|contradiction]. }
  assert (R : forall w t, ~ In x0a w -> readlines (w ++ x0a :: t) = (w ++ [x0a]) :: readlines t).
  { clear. induction w as [|b w IH]; intros t N; [reflexivity|]. cbn [app readlines]. assert (D : b <> x0a) by (intros ->; apply N; now left).
    change 10 with (b2n x0a). apply b2n_ne in D. rewrite D, IH by (intros X; apply N; now right). reflexivity. }
  assert (Q : forall w, w <> [] -> ~ In x0a w -> readlines w = [w]).
  { clear. induction w as [|b w IH]; intros Z N; [contradiction|]. cbn [readlines]. assert (D : b <> x0a) by (intros ->; apply N; now left).
    change 10 with (b2n x0a). apply b2n_ne in D. rewrite D. destruct w as [|c w]; [reflexivity|]. rewrite IH; [reflexivity|discriminate|intros X; apply N; now right]. }
  destruct S as [N|(w & t & -> & N)].
  - destruct data as [|b l]; [constructor|]. rewrite Q by (assumption || discriminate). constructor; [discriminate|exact N].
  - rewrite R by exact N. constructor; [exact N|]. apply IH. rewrite app_length in L. cbn in L. lia.
Qed.
Lemma app_first (w t w' t' : bytes) : ~ In x0a w -> ~ In x0a w' -> w ++ x0a :: t = w' ++ x0a :: t' -> w = w' /\ t = t'.
Proof.
  revert w'. induction w as [|b w IH]; intros [|c w'] N N' E; cbn [app] in E.
  - injection E as ->. auto.
  - injection E as <- _. exfalso. apply N'. now left.
  - injection E as -> _. exfalso. apply N. now left.
  - injection E as -> E. destruct (IH w') as [-> ->]; [intros X; apply N; now right|intros X; apply N'; now right|exact E|auto].
Qed.
Lemma lines_unique data ls : file_lines data ls -> forall ls', file_lines data ls' -> ls' = ls.
Proof.
  induction 1 as [|w Z N|w t ls N H IH]; intros ls' H'.
  - inversion H' as [|w' Z'|w t ls N Ht E]; subst; [reflexivity|contradiction|destruct w; discriminate].
  - inversion H' as [|w' Z'|w0 t ls N0 Ht E]; subst; [contradiction|reflexivity|]. exfalso. apply N, in_or_app. right. now left.
  - inversion H' as [E|w' Z' N' E|w0 t0 ls0 N0 Ht E]; subst; [destruct w; discriminate|exfalso; apply N', in_or_app; right; now left|].
    destruct (app_first w0 t0 w t N0 N E) as [-> ->]. f_equal. now apply IH.
Qed.
Definition fixed (prev : bytes) (ls : list bytes) : bytes := fst (fix_lines prev ls).
Lemma no_tag prev raw ls : Forall2 rep raw ls -> (forall l, In l ls -> ~ closing l) -> fix_lines prev raw = (concat ls, false).
Proof.
  intros F. revert prev. induction F as [|r l raw ls H F IH]; intros prev N; [reflexivity|]. cbn [fix_lines concat]. apply line_spec in H. rewrite H.
  rewrite (not_tag l) by (apply N; now left). cbn [andb]. rewrite IH by (intros x X; apply N; now right). reflexivity.
Qed.
Lemma past prev raw a : Forall2 rep raw a -> (forall l, In l a -> ~ closing l) -> forall more, exists prev',
  fix_lines prev (raw ++ more) = (concat a ++ fst (fix_lines prev' more), snd (fix_lines prev' more)) /\ (prev' = prev \/ ~ closing prev').
Proof.
  intros F. revert prev. induction F as [|r l raw a H F IH]; intros prev N more.
  - exists prev. split; [cbn [app concat]; apply surjective_pairing|now left].
  - apply line_spec in H. cbn [app fix_lines concat]. rewrite H, (not_tag l) by (apply N; now left). cbn [andb orb].
    destruct (IH l (fun x X => N x (or_intror X)) more) as (p & E & D). exists p. rewrite E. split; [now rewrite <- app_assoc|]. right. destruct D as [->|D]; [apply N; now left|exact D].
Qed.
Lemma nil_open : ~ closing [].
Proof. intros (a & b & E). destruct a; discriminate. Qed.
Theorem file_spec data raw ls : file_lines data raw -> Forall2 rep raw ls ->
  ((forall l, In l ls -> ~ closing l) -> fix_nzb data = concat ls ++ bstr "</nzb>") /\
  (forall a l b, ls = a ++ l :: b -> closing l -> (forall m, In m (a ++ b) -> ~ closing m) -> fix_nzb data = concat ls) /\
  (forall a l b, ls = a ++ l :: l :: b -> closing l -> (forall m, In m (a ++ b) -> ~ closing m) -> fix_nzb data = concat (a ++ l :: b)).
Proof.
  intros L F. rewrite (lines_unique _ _ (lines_read data) raw L) in F. clear raw L. unfold fix_nzb. split; [|split].
  - intros N. rewrite (no_tag [] _ _ F N). reflexivity.
  - intros a l b -> C N. apply Forall2_app_inv_r in F as (ra & rb & Fa & Fb & ->). inversion Fb as [|r ? rb' ? Hr Fb']; subst.
    destruct (past [] ra a Fa (fun x X => N x (in_or_app _ _ _ (or_introl X))) (r :: rb')) as (p & E & D). rewrite E. cbn [fix_lines]. apply line_spec in Hr. rewrite Hr.
    rewrite (proj2 (tag_spec l) C). assert (P : beqb p l = false).
    { apply not_true_iff_false. intros P. apply beqb_eq in P. subst p. destruct D as [->|D]; [now apply nil_open|contradiction]. }
    rewrite P. cbn [andb]. rewrite (no_tag l rb' b Fb') by (intros x X; apply N, in_or_app; now right). cbn [fst snd orb]. now rewrite concat_app.
  - intros a l b -> C N. apply Forall2_app_inv_r in F as (ra & rb & Fa & Fb & ->). inversion Fb as [|r ? rb' ? Hr Fb']; subst. inversion Fb' as [|r2 ? rb2 ? Hr2 Fb2]; subst.
    destruct (past [] ra a Fa (fun x X => N x (in_or_app _ _ _ (or_introl X))) (r :: r2 :: rb2)) as (p & E & D). rewrite E. cbn [fix_lines]. apply line_spec in Hr, Hr2. rewrite Hr, Hr2.
    rewrite (proj2 (tag_spec l) C). assert (P : beqb p l = false).
    { apply not_true_iff_false. intros P. apply beqb_eq in P. subst p. destruct D as [->|D]; [now apply nil_open|contradiction]. }
    rewrite P, beqb_refl. cbn [andb]. rewrite (no_tag [] rb2 b Fb2) by (intros x X; apply N, in_or_app; now right). cbn [fst snd orb app]. now rewrite concat_app.
Qed.
Lemma lines_closing raw : forall prev, snd (fix_lines prev raw) = true -> closing (fst (fix_lines prev raw)) \/ closing prev.
Proof.
  induction raw as [|r raw IH]; intros prev H; [discriminate|]. cbn [fix_lines] in *. set (l := fix_line r) in *.
  destruct (has_tag l) eqn:T; cbn [andb] in *.
  - apply tag_spec in T as C. destruct (beqb prev l) eqn:P.
    + apply beqb_eq in P. subst prev. now right.
    + destruct (fix_lines l raw) as [o t]. left. cbn [fst]. destruct C as (a & b & ->). exists a, (b ++ o). now rewrite <- !app_assoc.
  - specialize (IH l). destruct (fix_lines l raw) as [o t]. cbn [fst snd orb] in *. left. destruct (IH H) as [(a & b & ->)|C]; [|exfalso; apply tag_spec in C; congruence].
    exists (l ++ a), b. now rewrite <- app_assoc.
Qed.
Theorem ends_closed data : closing (fix_nzb data).
Proof.
  unfold fix_nzb. pose proof (lines_closing (readlines data) []) as H. destruct (fix_lines [] (readlines data)) as [o t]. cbn [fst snd] in H. destruct t.
  - destruct (H eq_refl) as [C|C]; [exact C|]. now apply nil_open in C.
  - exists o, []. now rewrite app_nil_r.
Qed.
Theorem never_empty data : fix_nzb data <> [].
Proof. intros E. pose proof (ends_closed data) as C. rewrite E in C. now apply nil_open in C. Qed.
Theorem read_fails A (parse : bytes -> result (list A)) data e : parse data = Err e -> read_nzb A parse data = parse (fix_nzb data).
Proof.
  intros E. unfold read_nzb. rewrite E. destruct (lenN (fix_nzb data) =? 0) eqn:Z; [|reflexivity]. exfalso. apply (never_empty data).
  apply N.eqb_eq in Z. rewrite lenN_length in Z. destruct (fix_nzb data); [reflexivity|cbn in Z; lia].
Qed.
Lemma sound_same l : sound l -> fix_line l = l.
Proof.
  induction l as [|b l IH]; intros [Z R]; [reflexivity|].
  assert (S : sound l) by (split; [intros X; apply Z; now right|intros a c ->; now apply (R (b :: a) c)]).
  destruct (Byte.byte_eq_dec b x26) as [->|A].
  - destruct (R [] l eq_refl) as [R1 R2]. rewrite fix_ref by assumption. now rewrite IH.
  - rewrite fix_char, IH; [reflexivity|exact S|exact A|]. intros ->. apply Z. now left.
Qed.
Lemma lines_concat data raw : file_lines data raw -> concat raw = data.
Proof. induction 1 as [|w Z N|w t ls N H IH]; [reflexivity|apply app_nil_r|]. cbn [concat]. rewrite IH, <- app_assoc. reflexivity. Qed.
Theorem sound_kept data a l b : file_lines data (a ++ l :: b) -> (forall m, In m (a ++ l :: b) -> sound m) -> closing l -> (forall m, In m (a ++ b) -> ~ closing m) -> fix_nzb data = data.
Proof.
  intros L S C N. assert (F : Forall2 rep (a ++ l :: b) (a ++ l :: b)).
  { assert (G : forall ls, (forall m, In m ls -> sound m) -> Forall2 rep ls ls).
    { induction ls as [|x ls IH]; intros H; constructor; [apply line_spec, sound_same, H; now left|apply IH; intros m M; apply H; now right]. }
    now apply G. }
  destruct (file_spec _ _ _ L F) as (_ & H & _). rewrite (H a l b eq_refl C N). now apply lines_concat.
Qed.
Fixpoint sound_test (l : bytes) : bool :=
  match l with
  | [] => true
  | b :: l => negb (b2n b =? 0) && (if b2n b =? 38 then entity_next l && negb (starts_with Byte.eqb (bstr "ouml;") l) else true) && sound_test l
  end.
Lemma sound_tested l : sound_test l = true -> sound l.
Proof.
  induction l as [|b l IH]; intros H; [split; [intros []|intros [|] ? E; discriminate]|]. cbn [sound_test] in H. apply andb_true_iff in H as [H H3]. apply andb_true_iff in H as [H1 H2].
  destruct (IH H3) as [Z R]. split.
  - intros [->|X]; [discriminate H1|contradiction].
  - intros [|c a] d E; [|injection E as -> ->; now apply (R a d)]. injection E as -> ->. change (b2n x26 =? 38) with true in H2. apply andb_true_iff in H2 as [A B].
    split; [now apply entity_spec|]. intros r ->. now rewrite sw_app in B.
Qed.
